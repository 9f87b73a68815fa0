(** Setup of the projection modules with particular options, blocks without bins, and cases. *)
From Coq Require Import ZArith Lia.
From Verif Require Import Base Spec Quad Interp FftModel RsModel RsSpec RsFacts RsFacts2 RsFacts3 RsExample FftFacts7 OgataModel OgataFacts HodModel PkModel AddModel AddSpec AddFacts2 PipeModel PipeSpec
  PipeFacts PipeFacts2 PipeFacts3 PipeExample OptModel ChainModel ChainSpec ChainFacts ChainFacts2 ChainFacts3 ChainFacts4 ChainFacts5 ChainFacts6 ChainExample.
Open Scope R_scope.

Lemma fft_setup_iff missing wrong o suffixes lgr lgi p T :
  fft_setup missing wrong o suffixes lgr lgi = Ok (p, T) <->
  exists ty sample, o "corr_type"%string = Some (OStr ty) /\ (ty = "wp"%string \/ ty = "ds"%string) /\ o "sample"%string = Some (OStr sample) /\
    text_option o "input_section_name" /\ text_option o "output_section_name" /\ count_option o "n_transform" /\
    number_option o "k_min_extrapolate" /\ number_option o "k_max_extrapolate" /\ number_option o "rp_min" /\ number_option o "rp_max" /\
    p = proj_of o suffixes ty sample /\ (0 <= count_or o "n_transform" 8192)%Z /\
    make_transformer lgr lgi ty (Z.to_nat (count_or o "n_transform" 8192)) (number_or o "k_min_extrapolate" (1 / 10000)) (number_or o "k_max_extrapolate" 5000000)
      (number_or o "rp_min" (1 / 10)) (number_or o "rp_max" 1000) = Ok T.
Proof. apply (setup_with_iff missing wrong o suffixes (make_transformer lgr lgi) 8192). Qed.
Lemma quad_setup_iff missing wrong o suffixes p O :
  quad_setup missing wrong o suffixes = Ok (p, O) <->
  exists ty sample, o "corr_type"%string = Some (OStr ty) /\ (ty = "wp"%string \/ ty = "ds"%string) /\ o "sample"%string = Some (OStr sample) /\
    text_option o "input_section_name" /\ text_option o "output_section_name" /\ count_option o "n_transform" /\
    number_option o "k_min_extrapolate" /\ number_option o "k_max_extrapolate" /\ number_option o "rp_min" /\ number_option o "rp_max" /\
    p = proj_of o suffixes ty sample /\ (0 <= count_or o "n_transform" 250)%Z /\
    make_ogata ty (Z.to_nat (count_or o "n_transform" 250)) (number_or o "k_min_extrapolate" (1 / 10000)) (number_or o "k_max_extrapolate" 5000000)
      (number_or o "rp_min" (1 / 10)) (number_or o "rp_max" 1000) = Ok O.
Proof. apply (setup_with_iff missing wrong o suffixes make_ogata 250). Qed.
Lemma setup_bad_type missing wrong o suffixes lgr lgi ty : o "corr_type"%string = Some (OStr ty) -> ty <> "wp"%string -> ty <> "ds"%string ->
  fft_setup missing wrong o suffixes lgr lgi = Err "ValueError" /\ quad_setup missing wrong o suffixes = Err "ValueError".
Proof.
  intros E N1 N2. unfold fft_setup, quad_setup, setup_with, get_string. rewrite E. cbn [bind existsb].
  destruct (String.eqb_spec ty "wp"); [contradiction|]. destruct (String.eqb_spec ty "ds"); [contradiction|]. split; reflexivity.
Qed.
Lemma setup_defaults missing wrong o suffixes lgr lgi ty sample : (ty = "wp"%string \/ ty = "ds"%string) ->
  o "corr_type"%string = Some (OStr ty) -> o "sample"%string = Some (OStr sample) ->
  (forall n, n <> "corr_type"%string -> n <> "sample"%string -> o n = None) ->
  let p := {| q_type := ty; q_input := (if string_dec ty "wp" then "galaxy_power" else "matter_galaxy_power")%string; q_output := ty; q_suffixes := suffixes; q_sample := sample |} in
  (exists T, fft_setup missing wrong o suffixes lgr lgi = Ok (p, T) /\ make_transformer lgr lgi ty (Z.to_nat 8192) (1 / 10000) 5000000 (1 / 10) 1000 = Ok T) /\
  exists O, quad_setup missing wrong o suffixes = Ok (p, O) /\ make_ogata ty (Z.to_nat 250) (1 / 10000) 5000000 (1 / 10) 1000 = Ok O.
Proof.
  intros TY C S N p.
  assert (PE : p = proj_of o suffixes ty sample).
  { unfold p, proj_of, text_or. rewrite !N by discriminate. destruct TY as [-> | ->]; reflexivity. }
  assert (CO : forall d, count_or o "n_transform" d = d) by (intro d; unfold count_or; now rewrite N by discriminate).
  assert (NO : forall n d, n <> "corr_type"%string -> n <> "sample"%string -> number_or o n d = d) by (intros n d A B; unfold number_or; now rewrite N).
  assert (G : text_option o "input_section_name" /\ text_option o "output_section_name" /\ count_option o "n_transform" /\
    number_option o "k_min_extrapolate" /\ number_option o "k_max_extrapolate" /\ number_option o "rp_min" /\ number_option o "rp_max").
  { unfold text_option, count_option, number_option. rewrite !N by discriminate. repeat split; now left. }
  destruct G as (G1 & G2 & G3 & G4 & G5 & G6 & G7).
  assert (BIG : forall a b, (0 <= b)%Z -> (a <= Z.to_nat b)%nat <-> (Z.of_nat a <= b)%Z) by (intros a b0 Hb; lia).
  split.
  - destruct (proj1 (set_up lgr lgi ty (Z.to_nat 8192) (1 / 10000) 5000000 (1 / 10) 1000 ltac:(lra) ltac:(lra)) TY) as [T MK]; [apply BIG; lia|].
    exists T. split; [|exact MK]. apply fft_setup_iff. exists ty, sample. rewrite CO, !NO by discriminate. do 10 (split; [assumption|]). split; [exact PE|]. split; [lia|exact MK].
  - destruct (proj2 (OgataFacts.setup_iff ty (Z.to_nat 250) (1 / 10000) 5000000 (1 / 10) 1000) TY) as (O & _ & MK); [apply BIG; lia|].
    exists O. split; [|exact MK]. apply quad_setup_iff. exists ty, sample. rewrite CO, !NO by discriminate. do 10 (split; [assumption|]). split; [exact PE|]. split; [lia|exact MK].
Qed.
Lemma setup_case : exists o p T, o "sample"%string = Some (OStr "lens") /\ o "n_transform"%string = Some (OInt 4) /\
  fft_setup "BlockNameNotFound" "BlockWrongValueType" o (Some ["1"; "2"]%string) gam0 gam0 = Ok (p, T) /\ q_input p = "galaxy_power"%string /\ q_output p = "wp"%string.
Proof.
  set (o := fun n => if String.eqb n "sample" then Some (OStr "lens") else if String.eqb n "corr_type" then Some (OStr "wp") else if String.eqb n "n_transform" then Some (OInt 4) else None).
  destruct (proj1 (set_up gam0 gam0 "wp" 4 (1 / 10000) 5000000 (1 / 10) 1000 ltac:(lra) ltac:(lra)) (or_introl eq_refl)) as [T MK]; [lia|].
  exists o, (proj_of o (Some ["1"; "2"]%string) "wp" "lens"), T. do 2 (split; [reflexivity|]). split; [|split; reflexivity].
  apply fft_setup_iff. exists "wp"%string, "lens"%string. split; [reflexivity|]. split; [now left|]. split; [reflexivity|].
  split; [now left|]. split; [now left|]. split; [right; now exists 4%Z|]. do 4 (split; [now left|]). split; [reflexivity|]. split; [cbn; lia|exact MK].
Qed.

Lemma either_fails T ht O p b b' e : fft_execute T p b = (b', Err e) \/ quad_execute ht O p b = (b', Err e) -> forall s k, s <> q_output p -> b' s k = b s k.
Proof. intros [H|H]; [exact (fft_fails T p b b' e H)|exact (quad_fails ht O p b b' e H)]. Qed.
Lemma block_no_bins T ht O p b : q_suffixes p = Some [] \/ (q_suffixes p = None /\ exists n, b (q_sample p) "nbin"%string = Some (BInt n) /\ (n <= 0)%Z) ->
  (q_type p <> "ds"%string -> exists b', fft_execute T p b = (b', Err "UnboundLocalError") /\ b' (q_output p) "sample"%string = Some (BStr (q_sample p))) /\
  exists b', quad_execute ht O p b = (b', Err "UnboundLocalError") /\ b' (q_output p) "sample"%string = Some (BStr (q_sample p)).
Proof.
  intro H. assert (C : exists n, read_count p b = Ok n /\ Z.to_nat n = 0%nat).
  { unfold read_count. destruct H as [-> | [-> (n & -> & L)]]; [exists 0%Z; split; reflexivity|exists n; split; [reflexivity|lia]]. }
  destruct C as (n & C & Z0).
  assert (P : forall bin name, exists b', project_block bin p name b = (b', Err "UnboundLocalError") /\ b' (q_output p) "sample"%string = Some (BStr (q_sample p))).
  { intros bin name. unfold project_block. rewrite C, Z0. cbn [seq bins_loop]. eexists. split; [reflexivity|]. apply bput_same. }
  split; [|apply P]. intro N. unfold fft_execute. destruct (String.eqb_spec (q_type p) "ds"); [contradiction|]. apply P.
Qed.
Lemma block_case : exists T O b1 b2, make_transformer gam0 gam0 "ds" 4 1 (exp 3) 0 1000 = Ok T /\ fft_execute T (chain_proj "ds") chain_after = (b1, Ok tt) /\
  make_ogata "wp" 2 1 (exp 1) 0 1 = Ok O /\ quad_execute (plain_ht (fun _ => 1%R) 1) O (chain_proj "wp") chain_after = (b2, Ok tt).
Proof. destruct (chain_fft "ds" (or_intror eq_refl)) as (T & b1 & M1 & E1). destruct chain_quad as (O & b2 & M2 & E2). exists T, O, b1, b2. tauto. Qed.
Lemma chain_case : exists st' lg T b', execute toy_ext (toy_config 4) (toy_block "t") (toy_start, []) = ((st', lg), Ok tt) /\
  free_section (g_hod_section (toy_config 4)) /\ free_section (g_hod_section_ia (toy_config 4)) /\ free_section (g_obs_section (toy_config 4)) /\
  In ("gg", "galaxy_power")%string (galaxy_kinds (toy_config 4)) /\ matching_suffixes 2 (q_suffixes (chain_proj "wp")) /\ x_bins toy_ext (5%R : obj toy) = Ok 2%nat /\
  fft_execute T (chain_proj "wp") (saved (x_grid toy_ext (toy_block "t")) keep lg chain_block) = (b', Ok tt).
Proof.
  destruct chain_ok as [st' E]. destruct (chain_fft "wp" (or_introl eq_refl)) as (T & b' & _ & H). destruct (toy_sections 4) as (F1 & F2 & F3).
  exists st', (snd (fst chain_run)), T, b'. split; [exact E|]. do 3 (split; [assumption|]). split; [cbn; tauto|]. split; [right; split; [discriminate|reflexivity]|]. split; [reflexivity|].
  rewrite <- chain_after_eq. exact H.
Qed.

Lemma correct_needs mk data sec z b : ~ has_cosmology b -> exists e, correct_execute mk data sec z b = (b, Err e).
Proof.
  intro N. unfold correct_execute. destruct (match b sec "nbin"%string with Some (BInt n) => Ok n | Some _ => _ | None => _ end) as [nb|e]; cbn [bind]; [|eauto].
  destruct (match b sec "save_name"%string with Some (BStr s) => Ok s | Some _ => _ | None => _ end) as [ty|e]; cbn [bind]; [|eauto].
  destruct (negb _); [eauto|]. destruct (run_arguments b) as [l|e] eqn:R; cbn [bind]; [|eauto]. exfalso. apply N. exact (proj2 (arguments_iff b) l R).
Qed.
Lemma still_cosmology p n b b' : only_section (q_output p) n b b' -> q_output p <> "cosmological_parameters"%string -> has_cosmology b -> has_cosmology b'.
Proof.
  intros O N [H1 H2]. split.
  - intros k I. rewrite O by (left; congruence). now apply H1.
  - rewrite !O by (left; congruence). exact H2.
Qed.
Lemma correction_case : exists T O b1 b2 b3, fft_execute T (chain_proj "wp") chain_after = (b1, Ok tt) /\ has_cosmology b1 /\
  (forall zi, In zi [1 / 4; 1 / 2] -> regular (toy_cosmo 2) zi /\ regular (toy_cosmo 1) zi) /\
  correct_execute (fun _ => toy_cosmo 2) (toy_cosmo 1) "wp" [1 / 4; 1 / 2] b1 = (b2, Ok tt) /\
  quad_execute (plain_ht (fun _ => 1%R) 1) O (chain_proj "wp") chain_after = (b3, Ok tt) /\ has_cosmology b3 /\
  correct_execute (fun _ => toy_cosmo 2) (toy_cosmo 1) "wp" [1 / 4; 1 / 2] b3 = (b3, Err "ValueError").
Proof.
  destruct (chain_fft "wp" (or_introl eq_refl)) as (T & b1 & M1 & E1). destruct chain_quad as (O & b3 & M2 & E2).
  assert (H1 : has_cosmology b1).
  { destruct (fft_refines _ _ _ _ E1) as (rho & r & _ & _ & W). unfold wrote in W. eapply (still_cosmology (chain_proj "wp")); [apply W|discriminate|exact chain_cosmology]. }
  assert (H3 : has_cosmology b3).
  { destruct (quad_refines _ _ _ _ _ E2) as (r & _ & W). unfold wrote in W. eapply (still_cosmology (chain_proj "wp")); [apply W|discriminate|exact chain_cosmology]. }
  assert (G : forall zi, In zi [1 / 4; 1 / 2] -> regular (toy_cosmo 2) zi /\ regular (toy_cosmo 1) zi).
  { intros zi [<-|[<-|[]]]; split; apply toy_reg; lra. }
  destruct (after_fft T (chain_proj "wp") chain_after b1 (fun _ => toy_cosmo 2) (toy_cosmo 1) [1 / 4; 1 / 2] E1 (or_introl eq_refl) H1) as (nb & f & arr & NB & _ & _ & _ & Q).
  assert (N2 : nb = 2%nat).
  { destruct (fft_refines _ _ _ _ E1) as (rho & r & _ & P & W). destruct W as (_ & _ & W3 & _). rewrite W3 in NB. injection NB as NB. apply Nat2Z.inj in NB. rewrite <- NB.
    destruct (project_value _ _ _ _ _ _ P) as (nsv & n & _ & BC & _ & _ & LR & _). rewrite LR. cbn in BC. now injection BC as <-. }
  destruct Q as (b2 & E3 & _); [now rewrite N2|exact G|].
  exists T, O, b1, b2, b3. split; [exact E1|]. split; [exact H1|]. split; [exact G|]. split; [exact E3|]. split; [exact E2|]. split; [exact H3|].
  apply (proj2 (after_quad _ _ (chain_proj "wp") _ _ (fun _ => toy_cosmo 2) (toy_cosmo 1) [1 / 4; 1 / 2] E2) H3).
Qed.
