(** Properties C127-C128: the legacy module that tabulates the radial alignment of satellites
    (cosmosis_modules/legacy/ia/ia_radial_interface.py, ia_radial_lib.py) and its reader in
    cosmosis_modules/legacy/pk/pk_util.py. *)
From Coq Require Import ZArith Lia Lra.
From Coquelicot Require Import Complex.
From Verif Require Import Base Quad Interp FftModel PipeModel OptModel ChainModel PredModel MiniModel IaModel IaFacts IaFacts3 UellModel AupModel AupSpec LiaModel LiaSpec LiaFacts LhModel LhSpec LhSpec2 LhFacts LhFacts10 LrModel LrSpec LrFacts LrFacts2 LrFacts3 LrFacts4 LumProps.
Open Scope R_scope.

(** ** C127  The tables and the class *)
(** The sampled masses include the first and the last, and at each of them and each wavenumber the table holds the value
    wkm_f_ell computes from the multipoles of the class.  [G] is the gamma function, of which nothing is used. *)
Theorem C127_tables : forall over ht missing wrong o sfx s c b b', sat_says o b sfx s -> lr_setup missing wrong o = Ok c -> sat_fits s ->
  (1 <= sa_nmass s <= Z.of_nat (List.length (sa_mass s)))%Z -> lr_execute over ht c b = (b', Ok tt) ->
  b' "wkm"%string ("z" ++ sfx)%string = Some (BArr (sa_z s)) /\
  exists idx, sampling (List.length (sa_mass s)) (sa_nmass s) idx /\ forall j, (j < List.length (sa_z s))%nat ->
    holds_array (b' "wkm"%string (sat_name "mass_" j sfx)) (List.length idx) (fun m => nth (nth m idx 0%nat) (sa_mass s) 0) /\
    holds_array (b' "wkm"%string (sat_name "k_h_" j sfx)) (Z.to_nat (sa_nk s)) (sat_k s) /\
    exists W, holds_table (b' "wkm"%string (sat_name "w_km_" j sfx)) (List.length idx) (Z.to_nat (sa_nk s)) W /\
      forall G m k, (m < List.length idx)%nat ->
        wkm_f_ell G (sa_slope s) (sa_ell_max s) (List.length (ell_values (sa_ell_max s))) (sat_moment ht s j (nth m idx 0%nat) (sat_k s k)) = Ok (W m k).
Proof.
  intros over ht missing wrong o sfx s c b b' Y C F N Rn. destruct (run_tables over ht _ _ _ _ _ _ _ _ Y C F N Rn) as [Z T]. split; [exact Z|].
  exists (idx s). split; [|exact T]. replace (sa_nmass s) with (Z.of_nat (Z.to_nat (sa_nmass s))) at 1 by lia. apply index_sampling. lia.
Qed.
Print Assumptions C127_tables.
(** Without ties these are the masses and the values of the class. *)
Theorem C127_class : forall over ht missing wrong o sfx s c b b', sat_says o b sfx s -> lr_setup missing wrong o = Ok c -> sat_fits s -> no_ties s ->
  (1 <= sa_nmass s <= Z.of_nat (List.length (sa_mass s)))%Z -> lr_execute over ht c b = (b', Ok tt) ->
  exists ms, class_mass s = Ok ms /\ forall j, (j < List.length (sa_z s))%nat ->
    holds_array (b' "wkm"%string (sat_name "mass_" j sfx)) (List.length ms) (fun m => nth m ms 0) /\
    holds_array (b' "wkm"%string (sat_name "k_h_" j sfx)) (Z.to_nat (sa_nk s)) (sat_k s) /\
    exists W, holds_table (b' "wkm"%string (sat_name "w_km_" j sfx)) (List.length ms) (Z.to_nat (sa_nk s)) W /\
      forall G m k, (m < List.length ms)%nat -> class_wkm G ht s j m (sat_k s k) = Ok (W m k).
Proof. exact class_left. Qed.
Print Assumptions C127_class.
(** get_satellite_alignment on what the module left interpolates the table of the class, at every redshift. *)
Theorem C127_upsampled : forall over ht missing wrong o sfx s c b b' kv mq, sat_says o b sfx s -> lr_setup missing wrong o = Ok c -> sat_fits s -> no_ties s ->
  (1 <= sa_nmass s <= Z.of_nat (List.length (sa_mass s)))%Z -> (2 <= List.length (sa_mass s))%nat -> (2 <= sa_nk s)%Z -> lr_execute over ht c b = (b', Ok tt) ->
  exists ms W, class_mass s = Ok ms /\
    (forall G j m k, (j < List.length (sa_z s))%nat -> (m < List.length ms)%nat -> class_wkm G ht s j m (sat_k s k) = Ok (W j m k)) /\
    get_satellite_alignment b' kv mq (List.length (sa_z s)) sfx =
      Ok (map (fun j => map (fun x => map (fun y => upsampled_hankel (List.length ms) (fun m => nth m ms 0) (Z.to_nat (sa_nk s)) (sat_k s) (W j) y x) kv) mq) (seq 0 (List.length (sa_z s)))).
Proof. exact upsampled_left. Qed.
Print Assumptions C127_upsampled.
(** With ties they differ: of six masses with one virial radius, sampled at three, the class keeps four masses and three
    radii; the module keeps the virial radius of every mass it keeps. *)
Theorem C127_ties_refuted : exists s ms rv, sat_fits s /\ (1 <= sa_nmass s <= Z.of_nat (List.length (sa_mass s)))%Z /\
  class_mass s = Ok ms /\ class_rvir s = Ok rv /\ List.length ms = 4%nat /\ List.length rv = 3%nat /\
  exists h, lr_downsample (sa_nmass s) {| ha_mass := sa_mass s; ha_c := sa_c s; ha_rs := sa_rs s; ha_rvir := sa_rvir s |} = Ok h /\
    List.length (ha_mass h) = 4%nat /\ List.length (ha_rvir h) = 4%nat.
Proof.
  exists {| sa_nmass := 3; sa_kmin := 1; sa_kmax := 10; sa_nk := 2; sa_ell_max := 2; sa_hankel := 350; sa_slope := 0; sa_amplitude := [1]; sa_z := [0]; sa_mass := [1; 2; 3; 4; 5; 6]; sa_c := [[6; 5; 4; 3; 2; 1]]; sa_rs := [[1; 2; 3; 4; 5; 6]]; sa_rvir := [7; 7; 7; 7; 7; 7] |}.
  exists [1; 3; 5; 6], [7; 7; 7].
  assert (D : NoDup [1; 2; 3; 4; 5; 6]) by (repeat constructor; cbn [In]; intros K; repeat (destruct K as [K|K]; [lra|]); exact K).
  split. { unfold sat_fits. cbn [sa_mass sa_amplitude sa_z sa_c sa_rs sa_rvir]. repeat split; try exact D; intros r [<-|[]]; reflexivity. }
  split; [cbn; lia|]. split; [exact (proj1 ties_differ_in_length)|]. split; [exact (proj2 ties_differ_in_length)|]. split; [reflexivity|]. split; [reflexivity|].
  cbn [sa_nmass sa_mass sa_c sa_rs sa_rvir]. unfold lr_downsample. cbn [ha_mass ha_c ha_rs ha_rvir List.length]. change (Z.of_nat 6 =? 3)%Z with false. change (3 =? 0)%Z with false. change (Z.of_nat 6 / 3)%Z with 2%Z. change (2 =? 0)%Z with false.
  change (last_of (stride 2 [1; 2; 3; 4; 5; 6])) with (Ok 5). change (last_of [1; 2; 3; 4; 5; 6]) with (Ok 6). cbn beta iota zeta delta [bind]. rewrite (neq_true 5 6) by lra.
  eexists. split; [reflexivity|]. split; reflexivity.
Qed.
Print Assumptions C127_ties_refuted.
(** The amplitudes may be those ia_amplitudes.py left: then they are gamma_1h_amp of the class, and the statements above
    hold of the block that module returned. *)
Theorem C127_amplitudes : forall missing wrong columns oa b sfx a ca b1 o s, described columns oa b sfx a -> lia_setup missing wrong columns oa = Ok ca -> lia_execute ca b = (b1, Ok tt) ->
  sat_options o sfx s -> sat_halos b s -> reads b (parameters_of sfx) "gamma_1h_radial_slope" (sa_slope s) ->
  exists g, gamma_1h_amp a = Ok (Some g) /\ (sa_amplitude s = map g (seq 0 (am_nz a)) -> sat_says o b1 sfx s).
Proof.
  intros missing wrong columns oa b sfx a ca b1 o s D Sa Rn O B G. destruct (C124_amplitudes _ _ _ _ _ _ _ _ _ D Sa Rn) as (f & g & _ & Eg & _ & A & _).
  exists g. split; [exact Eg|]. intros E. exact (after_amplitudes _ _ _ _ _ _ _ _ _ _ _ D Sa Rn O B G g A E).
Qed.
Print Assumptions C127_amplitudes.

(** Five masses at two redshifts, sampled at three. *)
Definition lr_sat (slope : R) (nmass : Z) : satellites :=
  {| sa_nmass := nmass; sa_kmin := 1 / 1000; sa_kmax := 1000; sa_nk := 10; sa_ell_max := 6; sa_hankel := 350; sa_slope := slope; sa_amplitude := [2; 3]; sa_z := [0; 1];
     sa_mass := [1; 2; 3; 4; 5]; sa_c := [[9; 8; 7; 6; 5]; [8; 7; 6; 5; 4]]; sa_rs := [[1; 2; 3; 4; 5]; [2; 3; 4; 5; 6]]; sa_rvir := [1; 2; 3; 4; 5] |}.
Definition lr_options (nmass : Z) (name : string) : options := fun n => if String.eqb n "nmass" then Some (OInt nmass) else if String.eqb n "output_suffix" then Some (OStr name) else None.
Definition lr_block (slope : R) : dblock := fun s n =>
  if String.eqb s "concentration_m" then (if String.eqb n "z" then Some (BArr [0; 1]) else if String.eqb n "m_h" then Some (BArr [1; 2; 3; 4; 5]) else if String.eqb n "c" then Some (BTab [[9; 8; 7; 6; 5]; [8; 7; 6; 5; 4]]) else None)
  else if String.eqb s "nfw_scale_radius_m" then (if String.eqb n "rs" then Some (BTab [[1; 2; 3; 4; 5]; [2; 3; 4; 5; 6]]) else None)
  else if String.eqb s "virial_radius" then (if String.eqb n "rvir_m" then Some (BArr [1; 2; 3; 4; 5]) else None)
  else if String.eqb s "intrinsic_alignment_parameters_red" || String.eqb s "intrinsic_alignment_parameters_blue" then (if String.eqb n "gamma_1h_radial_slope" then Some (BDbl slope) else None)
  else if String.eqb s "ia_small_scale_alignment_red" || String.eqb s "ia_small_scale_alignment_blue" then (if String.eqb n "alignment_1h" then Some (BArr [2; 3]) else None) else None.
Lemma lr_says slope nmass : sat_says (lr_options nmass "RED") (lr_block slope) "_red" (lr_sat slope nmass).
Proof.
  split.
  - split; [left; reflexivity|]. do 2 (split; [right; split; reflexivity|]). do 3 (split; [right; split; reflexivity|]). exists "RED"%string. split; [left; reflexivity|]. right. split; [discriminate|reflexivity].
  - split; [repeat split|]. split; [left; reflexivity|reflexivity].
Qed.
Lemma lr_says_blue slope nmass : sat_says (lr_options nmass "BLUE") (lr_block slope) "_blue" (lr_sat slope nmass).
Proof.
  split.
  - split; [left; reflexivity|]. do 2 (split; [right; split; reflexivity|]). do 3 (split; [right; split; reflexivity|]). exists "BLUE"%string. split; [left; reflexivity|]. right. split; [discriminate|reflexivity].
  - split; [repeat split|]. split; [left; reflexivity|reflexivity].
Qed.
Lemma lr_fit slope nmass : sat_fits (lr_sat slope nmass).
Proof.
  unfold sat_fits. cbn [lr_sat sa_mass sa_amplitude sa_z sa_c sa_rs sa_rvir]. split; [reflexivity|]. split; [repeat constructor; cbn [In]; intros K; repeat (destruct K as [K|K]; [lra|]); exact K|].
  split; [reflexivity|]. split; [reflexivity|]. split; [intros r [<-|[<-|[]]]; reflexivity|]. split; [reflexivity|]. intros r [<-|[<-|[]]]; reflexivity.
Qed.
Lemma lr_untied slope nmass : no_ties (lr_sat slope nmass).
Proof.
  intros m M. cbn in M. do 4 (destruct m as [|m]; [split; [cbn; lra|intros j J; cbn in J; do 2 (destruct j as [|j]; [split; unfold cell; cbn; lra|]); lia]|]). lia.
Qed.
Lemma lr_free slope n nz sfx : sat_written nz sfx n -> lr_block slope "wkm"%string n = None. Proof. reflexivity. Qed.
Lemma lr_starts missing wrong nmass name : exists c, lr_setup missing wrong (lr_options nmass name) = Ok c.
Proof. eexists. cbn. reflexivity. Qed.
Example C127_case : forall ht, exists c b' ms, lr_setup "" "" (lr_options 2 "RED") = Ok c /\ lr_execute true ht c (lr_block (-2)) = (b', Ok tt) /\
  class_mass (lr_sat (-2) 2) = Ok ms /\ ms = [1; 3; 5] /\ holds_array (b' "wkm"%string "mass_1_red"%string) 3 (fun m => nth m ms 0) /\
  exists t, get_satellite_alignment b' [1] [2] 2 "_red" = Ok t.
Proof.
  intros ht. destruct (lr_starts ""%string ""%string 2 "RED"%string) as (c & C).
  assert (N : (1 <= sa_nmass (lr_sat (-2) 2) <= Z.of_nat (List.length (sa_mass (lr_sat (-2) 2))))%Z) by (cbn; lia).
  destruct (proj2 (run_when true ht _ _ _ _ _ _ _ (lr_says (-2) 2) C (lr_fit (-2) 2) N (fun n => lr_free (-2) n _ _))) as (b' & Rn); [right; now left|].
  destruct (C127_class _ _ _ _ _ _ _ _ _ _ (lr_says (-2) 2) C (lr_fit (-2) 2) (lr_untied (-2) 2) N Rn) as (ms & M & T). exists c, b', ms. split; [exact C|]. split; [exact Rn|]. split; [exact M|].
  assert (E : ms = [1; 3; 5]).
  { rewrite class_masses in M by (first [exact N|exact (proj1 (proj2 (lr_fit (-2) 2)))]). injection M as <-. reflexivity. }
  split; [exact E|]. split.
  - destruct (T 1%nat ltac:(cbn; lia)) as (H & _). rewrite E in *. exact H.
  - destruct (C127_upsampled _ _ _ _ _ _ _ _ _ _ [1] [2] (lr_says (-2) 2) C (lr_fit (-2) 2) (lr_untied (-2) 2) N ltac:(cbn; lia) ltac:(cbn; lia) Rn) as (ms' & W & _ & _ & G). eexists. exact G.
Qed.

(** ** C128  When the module runs and what it leaves alone *)
Theorem C128_setup : forall missing wrong o sfx s, sat_options o sfx s ->
  ((exists c, lr_setup missing wrong o = Ok c) <-> (0 <= sa_nk s /\ sa_ell_max s <= 11 /\ sa_hankel s <> 0)%Z).
Proof. exact setup_iff. Qed.
Print Assumptions C128_setup.
(** Only the slopes 0 and -2 give a result, if there is a multipole at all. *)
Theorem C128_runs : forall over ht missing wrong o sfx s c b, sat_says o b sfx s -> lr_setup missing wrong o = Ok c -> sat_fits s ->
  (1 <= sa_nmass s <= Z.of_nat (List.length (sa_mass s)))%Z -> (forall n, sat_written (List.length (sa_z s)) sfx n -> b "wkm"%string n = None) ->
  ((exists b', lr_execute over ht c b = (b', Ok tt)) <-> sa_slope s = 0 \/ sa_slope s = -2 \/ (sa_ell_max s < 0)%Z).
Proof. exact run_when. Qed.
Print Assumptions C128_runs.
Theorem C128_slope : forall over ht missing wrong o sfx s c b, sat_says o b sfx s -> lr_setup missing wrong o = Ok c -> sat_fits s ->
  (1 <= sa_nmass s <= Z.of_nat (List.length (sa_mass s)))%Z -> sa_slope s <> 0 -> sa_slope s <> -2 -> (0 <= sa_ell_max s)%Z -> lr_execute over ht c b = (b, Err "TypeError").
Proof. exact slope_stops. Qed.
Print Assumptions C128_slope.
(** The class computes slopes the module refuses. *)
Theorem C128_slope_refuted : exists o s c b, sat_says o b "_red" s /\ lr_setup "" "" o = Ok c /\ sat_fits s /\ no_ties s /\ (1 <= sa_nmass s <= Z.of_nat (List.length (sa_mass s)))%Z /\
  forall over ht G, lr_execute over ht c b = (b, Err "TypeError") /\ forall j m k, (j < List.length (sa_z s))%nat -> (m < 3)%nat -> exists w, class_wkm G ht s j m k = Ok w.
Proof.
  destruct (lr_starts ""%string ""%string 2 "RED"%string) as (c & C).
  assert (N : (1 <= sa_nmass (lr_sat (-1) 2) <= Z.of_nat (List.length (sa_mass (lr_sat (-1) 2))))%Z) by (cbn; lia).
  exists (lr_options 2 "RED"), (lr_sat (-1) 2), c, (lr_block (-1)). split; [apply lr_says|]. split; [exact C|]. split; [apply lr_fit|]. split; [apply lr_untied|]. split; [exact N|].
  intros over ht G. split; [apply (slope_stops _ _ _ _ _ _ _ _ _ (lr_says (-1) 2) C (lr_fit (-1) 2) N); cbn; first [lra|lia]|].
  intros j m k J M. rewrite class_value by (first [apply lr_fit|apply lr_untied|exact N|exact J|exact M]). destruct (wkm_value G (-1) 6 (sat_moment ht (lr_sat (-1) 2) j (nth m (idx (lr_sat (-1) 2)) 0%nat) k) ltac:(lia)) as (f & _ & E). eexists. exact E.
Qed.
Print Assumptions C128_slope_refuted.
(** More points than masses, or none: nothing is written. *)
Theorem C128_coarse : forall over ht missing wrong o sfx s c b, sat_says o b sfx s -> lr_setup missing wrong o = Ok c ->
  ((Z.of_nat (List.length (sa_mass s)) < sa_nmass s)%Z -> lr_execute over ht c b = (b, Err "ValueError")) /\
  (sa_nmass s = 0%Z -> (1 <= List.length (sa_mass s))%nat -> lr_execute over ht c b = (b, Err "ZeroDivisionError")).
Proof. intros over ht missing wrong o sfx s c b Y C. split; [now apply (too_coarse over ht missing wrong o sfx s c b)|now apply (no_points over ht missing wrong o sfx s c b)]. Qed.
Print Assumptions C128_coarse.
(** A negative number of points is not refused: -2 of four masses gives the fourth, the second and the fourth. *)
Theorem C128_negative_refuted : exists h, lr_downsample (-2) {| ha_mass := [1; 2; 3; 4]; ha_c := [[5; 6; 7; 8]]; ha_rs := [[1; 2; 3; 4]]; ha_rvir := [5; 6; 7; 8] |} = Ok h /\
  ha_mass h = [4; 2; 4] /\ ha_c h = [[8; 6; 8]] /\ ha_rvir h = [8; 6; 8].
Proof.
  unfold lr_downsample. cbn [ha_mass ha_c ha_rs ha_rvir List.length]. change (Z.of_nat 4 =? -2)%Z with false. change (-2 =? 0)%Z with false. change (Z.of_nat 4 / -2)%Z with (-2)%Z.
  change (last_of (stride (-2) [1; 2; 3; 4])) with (Ok 2). change (last_of [1; 2; 3; 4]) with (Ok 4). cbn beta iota zeta delta [bind]. rewrite (neq_true 2 4) by lra.
  eexists. split; [reflexivity|]. repeat split; reflexivity.
Qed.
Print Assumptions C128_negative_refuted.
Theorem C128_frame : forall over ht c b b' r s n, lr_execute over ht c b = (b', r) -> (s = "wkm"%string -> forall nz, ~ sat_written nz (rc_suffix c) n) -> b' s n = b s n.
Proof. exact frame. Qed.
Print Assumptions C128_frame.
(** A run that fails has written nothing, unless a name it writes was there before. *)
Theorem C128_failing : forall over ht missing wrong o c b b' e, lr_setup missing wrong o = Ok c -> (forall nz n, sat_written nz (rc_suffix c) n -> b "wkm"%string n = None) ->
  lr_execute over ht c b = (b', Err e) -> b' = b.
Proof. exact failing. Qed.
Print Assumptions C128_failing.
Theorem C128_once : forall over over' ht ht' c b b' r, lr_execute over ht c b = (b', Ok tt) -> lr_execute over' ht' c b' <> (r, Ok tt).
Proof. exact again. Qed.
Print Assumptions C128_once.
(** Two samples with different suffixes leave each other's tables alone. *)
Theorem C128_samples : forall over ht missing wrong o o' c c' b b' r, lr_setup missing wrong o = Ok c -> lr_setup missing wrong o' = Ok c' -> rc_suffix c <> rc_suffix c' ->
  lr_execute over ht c' b = (b', r) -> forall nz n, sat_written nz (rc_suffix c) n -> b' "wkm"%string n = b "wkm"%string n.
Proof.
  intros over ht missing wrong o o' c c' b b' r C C' D Rn nz n W. apply (frame _ _ _ _ _ _ _ _ Rn). intros _ nz' W'. apply D. exact (written_apart _ _ _ _ _ (suffix_tail _ _ _ _ C) (suffix_tail _ _ _ _ C') W W').
Qed.
Print Assumptions C128_samples.
(** Two runs on one block, for the samples red and blue: both succeed, and a third, again red, does not. *)
Example C128_case : forall ht, exists c c' b' b'', lr_setup "" "" (lr_options 2 "RED") = Ok c /\ lr_setup "" "" (lr_options 3 "BLUE") = Ok c' /\ rc_suffix c <> rc_suffix c' /\
  lr_execute true ht c (lr_block (-2)) = (b', Ok tt) /\ lr_execute true ht c' b' = (b'', Ok tt) /\ b'' "wkm"%string "z_red"%string = Some (BArr [0; 1]) /\ b'' "wkm"%string "z_blue"%string = Some (BArr [0; 1]).
Proof.
  intros ht. destruct (lr_starts ""%string ""%string 2 "RED"%string) as (c & C). destruct (lr_starts ""%string ""%string 3 "BLUE"%string) as (c' & C').
  assert (N : (1 <= sa_nmass (lr_sat (-2) 2) <= Z.of_nat (List.length (sa_mass (lr_sat (-2) 2))))%Z) by (cbn; lia).
  assert (N' : (1 <= sa_nmass (lr_sat (-2) 3) <= Z.of_nat (List.length (sa_mass (lr_sat (-2) 3))))%Z) by (cbn; lia).
  destruct (proj2 (run_when true ht _ _ _ _ _ _ _ (lr_says (-2) 2) C (lr_fit (-2) 2) N (fun n => lr_free (-2) n _ _))) as (b' & Rn); [right; now left|].
  assert (Ec : rc_suffix c = "_red"%string) by (cbn in C; injection C as <-; reflexivity). assert (Ec' : rc_suffix c' = "_blue"%string) by (cbn in C'; injection C' as <-; reflexivity).
  assert (D : rc_suffix c <> rc_suffix c') by (rewrite Ec, Ec'; discriminate).
  assert (Y : sat_says (lr_options 3 "BLUE") b' "_blue" (lr_sat (-2) 3)).
  { destruct (lr_says_blue (-2) 3) as (O & B & G & A). split; [exact O|]. unfold sat_halos, reads in *. rewrite !(C128_frame _ _ _ _ _ _ _ _ Rn) by discriminate. exact (conj B (conj G A)). }
  assert (Fr : forall n, sat_written (List.length (sa_z (lr_sat (-2) 3))) "_blue" n -> b' "wkm"%string n = None).
  { intros n W. rewrite (C128_samples _ _ _ _ _ _ _ _ _ _ _ C' C (not_eq_sym D) Rn _ n (eq_rect_r (fun x => sat_written _ x n) W Ec')). reflexivity. }
  destruct (proj2 (run_when true ht _ _ _ _ _ _ _ Y C' (lr_fit (-2) 3) N' Fr)) as (b'' & Rn'); [right; now left|].
  exists c, c', b', b''. split; [exact C|]. split; [exact C'|]. split; [exact D|]. split; [exact Rn|]. split; [exact Rn'|].
  rewrite (C128_samples _ _ _ _ _ _ _ _ _ _ _ C C' D Rn' 2%nat "z_red"%string) by (left; rewrite Ec; reflexivity).
  split; [exact (proj1 (C127_tables _ _ _ _ _ _ _ _ _ _ (lr_says (-2) 2) C (lr_fit (-2) 2) N Rn))|exact (proj1 (C127_tables _ _ _ _ _ _ _ _ _ _ Y C' (lr_fit (-2) 3) N' Rn'))].
Qed.
