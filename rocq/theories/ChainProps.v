(** Properties C97-C100: the data-block side of the real-space modules and the chain of modules. *)
From Coq Require Import ZArith Lia.
From Verif Require Import Base Spec Quad Interp FftModel RsModel RsSpec RsFacts RsFacts2 RsFacts3 RsExample FftFacts7 OgataModel OgataFacts HodModel PkModel AddModel AddSpec AddFacts2 PipeModel PipeSpec
  PipeFacts PipeFacts2 PipeFacts3 PipeExample OptModel ChainModel ChainSpec ChainFacts ChainFacts2 ChainFacts3 ChainFacts4 ChainFacts5 ChainFacts6 ChainExample ChainFacts7.
Open Scope R_scope.

(** C97. Setup of the two projection modules. *)
Theorem C97_fft_setup : forall missing wrong o suffixes lgr lgi p T,
  fft_setup missing wrong o suffixes lgr lgi = Ok (p, T) <->
  exists ty sample, o "corr_type"%string = Some (OStr ty) /\ (ty = "wp"%string \/ ty = "ds"%string) /\ o "sample"%string = Some (OStr sample) /\
    text_option o "input_section_name" /\ text_option o "output_section_name" /\ count_option o "n_transform" /\
    number_option o "k_min_extrapolate" /\ number_option o "k_max_extrapolate" /\ number_option o "rp_min" /\ number_option o "rp_max" /\
    p = proj_of o suffixes ty sample /\ (0 <= count_or o "n_transform" 8192)%Z /\
    make_transformer lgr lgi ty (Z.to_nat (count_or o "n_transform" 8192)) (number_or o "k_min_extrapolate" (1 / 10000)) (number_or o "k_max_extrapolate" 5000000)
      (number_or o "rp_min" (1 / 10)) (number_or o "rp_max" 1000) = Ok T.
Proof. exact fft_setup_iff. Qed.
Print Assumptions C97_fft_setup.
Theorem C97_quad_setup : forall missing wrong o suffixes p O,
  quad_setup missing wrong o suffixes = Ok (p, O) <->
  exists ty sample, o "corr_type"%string = Some (OStr ty) /\ (ty = "wp"%string \/ ty = "ds"%string) /\ o "sample"%string = Some (OStr sample) /\
    text_option o "input_section_name" /\ text_option o "output_section_name" /\ count_option o "n_transform" /\
    number_option o "k_min_extrapolate" /\ number_option o "k_max_extrapolate" /\ number_option o "rp_min" /\ number_option o "rp_max" /\
    p = proj_of o suffixes ty sample /\ (0 <= count_or o "n_transform" 250)%Z /\
    make_ogata ty (Z.to_nat (count_or o "n_transform" 250)) (number_or o "k_min_extrapolate" (1 / 10000)) (number_or o "k_max_extrapolate" 5000000)
      (number_or o "rp_min" (1 / 10)) (number_or o "rp_max" 1000) = Ok O.
Proof. exact quad_setup_iff. Qed.
Print Assumptions C97_quad_setup.
Theorem C97_type : forall missing wrong o suffixes lgr lgi ty, o "corr_type"%string = Some (OStr ty) -> ty <> "wp"%string -> ty <> "ds"%string ->
  fft_setup missing wrong o suffixes lgr lgi = Err "ValueError" /\ quad_setup missing wrong o suffixes = Err "ValueError".
Proof. exact setup_bad_type. Qed.
Print Assumptions C97_type.
(** Only corr_type and sample are needed. *)
Theorem C97_defaults : forall missing wrong o suffixes lgr lgi ty sample, (ty = "wp"%string \/ ty = "ds"%string) ->
  o "corr_type"%string = Some (OStr ty) -> o "sample"%string = Some (OStr sample) ->
  (forall n, n <> "corr_type"%string -> n <> "sample"%string -> o n = None) ->
  let p := {| q_type := ty; q_input := (if string_dec ty "wp" then "galaxy_power" else "matter_galaxy_power")%string; q_output := ty; q_suffixes := suffixes; q_sample := sample |} in
  (exists T, fft_setup missing wrong o suffixes lgr lgi = Ok (p, T) /\ make_transformer lgr lgi ty (Z.to_nat 8192) (1 / 10000) 5000000 (1 / 10) 1000 = Ok T) /\
  exists O, quad_setup missing wrong o suffixes = Ok (p, O) /\ make_ogata ty (Z.to_nat 250) (1 / 10000) 5000000 (1 / 10) 1000 = Ok O.
Proof. exact setup_defaults. Qed.
Print Assumptions C97_defaults.
Example C97_case : exists o p T, o "sample"%string = Some (OStr "lens") /\ o "n_transform"%string = Some (OInt 4) /\
  fft_setup "BlockNameNotFound" "BlockWrongValueType" o (Some ["1"; "2"]%string) gam0 gam0 = Ok (p, T) /\ q_input p = "galaxy_power"%string /\ q_output p = "wp"%string.
Proof. exact setup_case. Qed.

(** C98. What the projection modules leave in the block. *)
Theorem C98_fft : forall T p b b', fft_execute T p b = (b', Ok tt) ->
  exists rho r, (q_type p = "ds"%string -> read_rho b = Ok rho) /\
    project T (job_of p b) rho (read_pk b) (read_nz b (q_sample p)) = Ok r /\
    (1 <= List.length (snd r))%nat /\
    (forall i, (i < List.length (snd r))%nat -> b' (q_output p) (nth_bin (S i)) = Some (BArr (nth i (snd r) []))) /\
    b' (q_output p) "nbin"%string = Some (BInt (Z.of_nat (List.length (snd r)))) /\ b' (q_output p) "sample"%string = Some (BStr (q_sample p)) /\
    b' (q_output p) "rp"%string = Some (BArr (fst r)) /\ b' (q_output p) "sep_name"%string = Some (BStr "rp") /\
    b' (q_output p) "save_name"%string = Some (BStr (q_type p)) /\ only_section (q_output p) (List.length (snd r)) b b'.
Proof. exact fft_refines. Qed.
Print Assumptions C98_fft.
Theorem C98_quad : forall ht O p b b', quad_execute ht O p b = (b', Ok tt) ->
  exists r, ogata_project ht O (job_of p b) (read_pk b) (read_nz b (q_sample p)) = Ok r /\
    (1 <= List.length (snd r))%nat /\
    (forall i, (i < List.length (snd r))%nat -> b' (q_output p) (nth_bin (S i)) = Some (BArr (nth i (snd r) []))) /\
    b' (q_output p) "nbin"%string = Some (BInt (Z.of_nat (List.length (snd r)))) /\ b' (q_output p) "sample"%string = Some (BStr (q_sample p)) /\
    b' (q_output p) "rp"%string = Some (BArr (fst r)) /\ b' (q_output p) "sep_name"%string = Some (BStr "rp") /\
    b' (q_output p) "save_name"%string = Some (BStr "") /\ only_section (q_output p) (List.length (snd r)) b b'.
Proof. exact quad_refines. Qed.
Print Assumptions C98_quad.
Theorem C98_fft_succeeds : forall lgr lgi ty n k_min k_max lo hi T p b nb, 0 < k_min -> k_min < k_max -> make_transformer lgr lgi ty n k_min k_max lo hi = Ok T ->
  (q_type p = "ds"%string -> exists rho d, read_rho b = Ok rho /\ (1 <= fst rho)%nat /\ forall i, (i < fst rho)%nat -> snd rho i = d) ->
  bin_count (job_of p b) = Some nb -> (1 <= nb)%nat -> bins_present p b nb -> exists b', fft_execute T p b = (b', Ok tt).
Proof. exact fft_succeeds. Qed.
Print Assumptions C98_fft_succeeds.
Theorem C98_quad_succeeds : forall ht O p b nb, bin_count (job_of p b) = Some nb -> (1 <= nb)%nat -> bins_present p b nb -> exists b', quad_execute ht O p b = (b', Ok tt).
Proof. exact quad_succeeds. Qed.
Print Assumptions C98_quad_succeeds.
Theorem C98_failure_is_local : forall T ht O p b b' e, fft_execute T p b = (b', Err e) \/ quad_execute ht O p b = (b', Err e) ->
  forall s k, s <> q_output p -> b' s k = b s k.
Proof. exact either_fails. Qed.
Print Assumptions C98_failure_is_local.
Theorem C98_no_bins : forall T ht O p b, q_suffixes p = Some [] \/ (q_suffixes p = None /\ exists n, b (q_sample p) "nbin"%string = Some (BInt n) /\ (n <= 0)%Z) ->
  (q_type p <> "ds"%string -> exists b', fft_execute T p b = (b', Err "UnboundLocalError") /\ b' (q_output p) "sample"%string = Some (BStr (q_sample p))) /\
  exists b', quad_execute ht O p b = (b', Err "UnboundLocalError") /\ b' (q_output p) "sample"%string = Some (BStr (q_sample p)).
Proof. exact block_no_bins. Qed.
Print Assumptions C98_no_bins.
Example C98_case : exists T O b1 b2, make_transformer gam0 gam0 "ds" 4 1 (exp 3) 0 1000 = Ok T /\ fft_execute T (chain_proj "ds") chain_after = (b1, Ok tt) /\
  make_ogata "wp" 2 1 (exp 1) 0 1 = Ok O /\ quad_execute (plain_ht (fun _ => 1%R) 1) O (chain_proj "wp") chain_after = (b2, Ok tt).
Proof. exact block_case. Qed.

(** C99. From the pipeline module to the projections. *)
Theorem C99_sections : forall X c blk st st' lg, execute X c blk (st, []) = ((st', lg), Ok tt) ->
  free_section (g_hod_section c) -> free_section (g_hod_section_ia c) -> free_section (g_obs_section c) ->
  exists i o1 n1, reads X c blk st i /\ x_update X (p_power X st) (kwargs X i) = (o1, Ok tt) /\
    (galaxy c = true -> x_bins X o1 = Ok n1) /\
    (forall mode base, In (mode, base) (galaxy_kinds c) -> forall other b,
       (forall nb comp key, (nb < n1)%nat -> In (comp, key) [("1h", "p_k_1h"); ("2h", "p_k_2h"); ("tot", "p_k")]%string ->
          exists v, answer (request_single X blk (kwargs X i)) (fun _ => o1) mode comp = Ok v /\
            holds_grid (saved (x_grid X blk) other lg b) (bin_name base n1 nb) (x_grid X blk) key (r_val v nb)) /\
       (forall n nb, (nb < n)%nat -> (n1 <= nb)%nat \/ (n1 = 1%nat /\ n <> 1%nat) \/ (n1 <> 1%nat /\ n = 1%nat) ->
          forall k, saved (x_grid X blk) other lg b (bin_name base n nb) k = b (bin_name base n nb) k)) /\
    (alignment c = true -> exists o2 n2, x_update X o1 (x_hod X (g_ia_1 c)) = (o2, Ok tt) /\ x_bins X o2 = Ok n2 /\
     forall mode base, In (mode, base) (alignment_kinds c) -> forall other b,
       (forall nb comp key, (nb < n2)%nat -> In (comp, key) [("1h", "p_k_1h"); ("2h", "p_k_2h"); ("tot", "p_k")]%string ->
          exists v, answer (alignment_request X c blk i) (fun _ => o2) mode comp = Ok v /\
            holds_grid (saved (x_grid X blk) other lg b) (bin_name base n2 nb) (x_grid X blk) key (r_val v nb)) /\
       (forall n nb, (nb < n)%nat -> (n2 <= nb)%nat \/ (n2 = 1%nat /\ n <> 1%nat) \/ (n2 <> 1%nat /\ n = 1%nat) ->
          forall k, saved (x_grid X blk) other lg b (bin_name base n nb) k = b (bin_name base n nb) k)).
Proof. exact sections_written. Qed.
Print Assumptions C99_sections.
Theorem C99_matched : forall X c blk st st' lg, execute X c blk (st, []) = ((st', lg), Ok tt) ->
  free_section (g_hod_section c) -> free_section (g_hod_section_ia c) -> free_section (g_obs_section c) ->
  forall mode base, In (mode, base) (galaxy_kinds c) -> forall other b0 p, q_input p = base ->
  let B := saved (x_grid X blk) other lg b0 in
  exists i o1 n1, reads X c blk st i /\ x_update X (p_power X st) (kwargs X i) = (o1, Ok tt) /\ x_bins X o1 = Ok n1 /\
    forall nb ns, matching_suffixes n1 (q_suffixes p) -> (1 <= fst (fst (x_grid X blk)))%nat -> bin_count (job_of p B) = Some nb ->
      read_nz B (q_sample p) = Some ns -> (forall j, (j < nb)%nat -> exists f, n_bin ns (S j) = Some f) -> bins_present p B nb.
Proof. exact chain_present. Qed.
Print Assumptions C99_matched.
Theorem C99_projected : forall X c blk st st' lg, execute X c blk (st, []) = ((st', lg), Ok tt) ->
  free_section (g_hod_section c) -> free_section (g_hod_section_ia c) -> free_section (g_obs_section c) ->
  forall mode base, In (mode, base) (galaxy_kinds c) -> forall other b0 p, q_input p = base ->
  let B := saved (x_grid X blk) other lg b0 in
  forall T b', fft_execute T p B = (b', Ok tt) ->
    exists i o1 n1 nsv nb rho, reads X c blk st i /\ x_update X (p_power X st) (kwargs X i) = (o1, Ok tt) /\ x_bins X o1 = Ok n1 /\
      read_nz B (q_sample p) = Some nsv /\ bin_count (job_of p B) = Some nb /\ (q_type p = "ds"%string -> read_rho B = Ok rho) /\
      b' (q_output p) "rp"%string = Some (BArr (map (t_rp T) (kept T))) /\
      (matching_suffixes n1 (q_suffixes p) -> (n1 <> 1%nat -> nb = n1) /\
       forall j, (j < nb)%nat -> exists v s f rows l,
        answer (request_single X blk (kwargs X i)) (fun _ => o1) mode "tot" = Ok v /\
        section_is s (x_grid X blk) (r_val v (if Nat.eq_dec n1 1 then 0%nat else j)) /\
        n_bin nsv (S j) = Some f /\ List.length rows = RsModel.s_nz s /\
        (forall x, (x < RsModel.s_nz s)%nat -> transform T (RsModel.s_nk s) (RsModel.s_k s) (RsModel.s_pk s x) = Ok (nth x rows [])) /\
        b' (q_output p) (nth_bin (S j)) = Some (BArr l) /\ List.length l = List.length (kept T) /\
        forall x, (x < List.length l)%nat -> nth x l 0 =
          scale_of (q_type p) rho * simpson (RsModel.s_nz s) (fun y => interp1d (FillValue 0) (n_size nsv) (n_z nsv) f (RsModel.s_z s y) * snd (nth x (nth y rows []) (0, 0))) (RsModel.s_z s)).
Proof. exact projected_fft. Qed.
Print Assumptions C99_projected.
Theorem C99_unmatched : forall X c blk st st' lg, execute X c blk (st, []) = ((st', lg), Ok tt) ->
  free_section (g_hod_section c) -> free_section (g_hod_section_ia c) -> free_section (g_obs_section c) ->
  forall mode base, In (mode, base) (galaxy_kinds c) -> forall other b0 p, q_input p = base ->
  forall T, exists i o1 n1, reads X c blk st i /\ x_update X (p_power X st) (kwargs X i) = (o1, Ok tt) /\ x_bins X o1 = Ok n1 /\
    ((forall n, b0 (bin_name base n 0) "p_k"%string = None) ->
     (n1 <> 1%nat /\ q_suffixes p = None) \/ (n1 = 1%nat /\ exists t, q_suffixes p = Some ("1"%string :: t)) ->
     forall b', fft_execute T p (saved (x_grid X blk) other lg b0) <> (b', Ok tt)).
Proof. exact projected_unmatched. Qed.
Print Assumptions C99_unmatched.
Example C99_case : exists st' lg T b', execute toy_ext (toy_config 4) (toy_block "t") (toy_start, []) = ((st', lg), Ok tt) /\
  free_section (g_hod_section (toy_config 4)) /\ free_section (g_hod_section_ia (toy_config 4)) /\ free_section (g_obs_section (toy_config 4)) /\
  In ("gg", "galaxy_power")%string (galaxy_kinds (toy_config 4)) /\ matching_suffixes 2 (q_suffixes (chain_proj "wp")) /\ x_bins toy_ext (5%R : obj toy) = Ok 2%nat /\
  fft_execute T (chain_proj "wp") (saved (x_grid toy_ext (toy_block "t")) keep lg chain_block) = (b', Ok tt).
Proof. exact chain_case. Qed.

(** C100. From the projections to the correction. *)
Theorem C100_after_fft : forall T p b b1 mk data z, fft_execute T p b = (b1, Ok tt) -> q_type p = "wp"%string \/ q_type p = "ds"%string -> has_cosmology b1 ->
  exists nb f arr, b1 (q_output p) "nbin"%string = Some (BInt (Z.of_nat nb)) /\ b1 (q_output p) "rp"%string = Some (BArr arr) /\
    (forall i, (i < nb)%nat -> b1 (q_output p) (nth_bin (S i)) = Some (BArr (f i))) /\
    (List.length z <> nb -> correct_execute mk data (q_output p) z b1 = (b1, Err "ValueError")) /\
    (List.length z = nb -> (forall zi, In zi z -> regular (mk (cosmo_args b1)) zi /\ regular data zi) ->
     exists b2, correct_execute mk data (q_output p) z b1 = (b2, Ok tt) /\
      (forall i, (i < nb)%nat -> exists l, b2 (q_output p) (nth_bin (S i)) = Some (BArr l) /\
        (q_type p = "wp"%string -> scaled (hubble (mk (cosmo_args b1)) (nth i z 0)) (hubble data (nth i z 0)) l (f i)) /\
        (q_type p = "ds"%string -> scaled (RsModel.c_h data * sigma_crit (mk (cosmo_args b1)) (nth i z 0)) (RsModel.c_h (mk (cosmo_args b1)) * sigma_crit data (nth i z 0)) l (f i))) /\
      (exists l, b2 (q_output p) "rp"%string = Some (BArr l) /\ scaled (prod (map (dist_h data) z)) (prod (map (dist_h (mk (cosmo_args b1))) z)) l arr) /\
      forall s k, s <> q_output p \/ (k <> "rp"%string /\ forall i, (1 <= i <= nb)%nat -> k <> nth_bin i) -> b2 s k = b1 s k).
Proof. exact after_fft. Qed.
Print Assumptions C100_after_fft.
Theorem C100_needs_cosmology : forall mk data sec z b, ~ has_cosmology b -> exists e, correct_execute mk data sec z b = (b, Err e).
Proof. exact correct_needs. Qed.
Print Assumptions C100_needs_cosmology.
(** The quadrature module leaves an empty save_name: its output cannot be corrected. *)
Theorem C100_quadrature_refuted : forall ht O p b b1 mk data z, quad_execute ht O p b = (b1, Ok tt) ->
  (exists e, correct_execute mk data (q_output p) z b1 = (b1, Err e)) /\
  (has_cosmology b1 -> correct_execute mk data (q_output p) z b1 = (b1, Err "ValueError")).
Proof. exact after_quad. Qed.
Print Assumptions C100_quadrature_refuted.
Example C100_case : exists T O b1 b2 b3, fft_execute T (chain_proj "wp") chain_after = (b1, Ok tt) /\ has_cosmology b1 /\
  (forall zi, In zi [1 / 4; 1 / 2] -> regular (toy_cosmo 2) zi /\ regular (toy_cosmo 1) zi) /\
  correct_execute (fun _ => toy_cosmo 2) (toy_cosmo 1) "wp" [1 / 4; 1 / 2] b1 = (b2, Ok tt) /\
  quad_execute (plain_ht (fun _ => 1%R) 1) O (chain_proj "wp") chain_after = (b3, Ok tt) /\ has_cosmology b3 /\
  correct_execute (fun _ => toy_cosmo 2) (toy_cosmo 1) "wp" [1 / 4; 1 / 2] b3 = (b3, Err "ValueError").
Proof. exact correction_case. Qed.
