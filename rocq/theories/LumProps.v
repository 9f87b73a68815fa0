(** Properties C123-C124: luminosity averages of alignments (src/onepower/ia.py) and the legacy
    module that writes amplitudes (cosmosis_modules/legacy/ia/ia_amplitudes.py). *)
From Coq Require Import ZArith Lia Lra.
From Verif Require Import Base Quad Interp OptModel ChainModel PredModel IaModel AupModel AupSpec LumSpec LumFacts LumFacts2 LiaModel LiaSpec LiaFacts.
Open Scope R_scope.

(** ** C123  Averages over luminosities *)
Theorem C123_central : forall a f i gal p l, am_central a = "luminosity"%string -> alignment_gi a = Ok (Some f) -> (i < am_nz a)%nat ->
  am_file_cen a = Some gal -> am_lpivot_cen a = Some p -> luminosities (am_nz a) (am_z a) i gal l -> l <> [] -> (forall t, In t l -> 1 / 2 <= t) ->
  exists lo hi bin, spans lo hi l /\ binned nlbins lo hi l bin /\ (forall j, 0 < middle nlbins lo hi j) /\
  f i = am_gamma2h a * average (fun t => simpson_weight nlbins (bin t) * dependence (pow10 p) (am_beta_cen a) (am_beta_two a) (middle nlbins lo hi (bin t))) l.
Proof. exact central_average'. Qed.
Print Assumptions C123_central.
Theorem C123_satellite : forall a f i gal p l, am_satellite a = "luminosity"%string -> gamma_1h_amp a = Ok (Some f) -> (i < am_nz a)%nat ->
  am_file_sat a = Some gal -> am_lpivot_sat a = Some p -> luminosities (am_nz a) (am_z a) i gal l -> l <> [] -> (forall t, In t l -> 1 / 2 <= t) ->
  exists lo hi bin, spans lo hi l /\ binned nlbins lo hi l bin /\ (forall j, 0 < middle nlbins lo hi j) /\
  f i = am_gamma1h a * average (fun t => simpson_weight nlbins (bin t) * dependence (pow10 p) (am_beta_sat a) None (middle nlbins lo hi (bin t))) l.
Proof. exact satellite_average'. Qed.
Print Assumptions C123_satellite.
(** Range and bins are determined, and the middle of its bin is near each value. *)
Theorem C123_determined : forall n l lo hi bin, (1 <= n)%nat -> l <> [] -> spans lo hi l -> binned n lo hi l bin ->
  lo < hi /\ (forall lo' hi', spans lo' hi' l -> lo' = lo /\ hi' = hi) /\
  (forall bin' t, binned n lo hi l bin' -> In t l -> bin' t = bin t) /\
  (forall t, In t l -> Rabs (t - middle n lo hi (bin t)) <= (hi - lo) / INR n / 2).
Proof.
  exact (fun n l lo hi bin Hn N S B => conj (spans_lt lo hi l N S) (conj (fun lo' hi' S' => spans_once lo' hi' lo hi l N S' S)
    (conj (fun bin' t B' I => bin_once n lo hi l bin' bin t Hn (spans_lt lo hi l N S) B' B I) (fun t I => middle_near n lo hi l bin t Hn (spans_lt lo hi l N S) B I)))).
Qed.
Print Assumptions C123_determined.
(** Simpson's weights keep the average within a third and four thirds. *)
Theorem C123_bounds : forall n (bin : R -> nat) (g : R -> R) l, l <> [] -> (forall t, In t l -> 0 <= g t) ->
  1 / 3 * average g l <= average (fun t => simpson_weight n (bin t) * g t) l <= 4 / 3 * average g l.
Proof. exact average_bounds. Qed.
Print Assumptions C123_bounds.
(** A redshift without galaxies has no alignment. *)
Theorem C123_empty : forall a f i gal, (i < am_nz a)%nat -> luminosities (am_nz a) (am_z a) i gal [] ->
  (am_central a = "luminosity"%string -> alignment_gi a = Ok (Some f) -> am_file_cen a = Some gal -> 0 <= am_beta_cen a -> (forall b2, am_beta_two a = Some b2 -> 0 <= b2) -> f i = 0) /\
  (am_satellite a = "luminosity"%string -> gamma_1h_amp a = Ok (Some f) -> am_file_sat a = Some gal -> 0 <= am_beta_sat a -> f i = 0).
Proof.
  exact (fun a f i gal Hi L => conj (fun E F G B B2 => central_empty a f i gal E F Hi G B B2 L) (fun E F G B => satellite_empty a f i gal E F Hi G B L)).
Qed.
Print Assumptions C123_empty.

(** One galaxy of luminosity 1 at each of two redshifts. *)
Definition lum_amp (beta : R) (gal : list (R * R)) : amplitudes :=
  {| am_nz := 2; am_z := INR; am_central := "luminosity"; am_satellite := "luminosity"; am_gamma2h := 5; am_gamma1h := 3; am_beta_cen := beta; am_beta_two := None;
     am_beta_sat := beta; am_mpivot_cen := None; am_mpivot_sat := None; am_lpivot_cen := Some 0; am_lpivot_sat := Some 0; am_file_cen := Some gal; am_file_sat := Some gal |}.
Definition two_galaxies : list (R * R) := [(0, 0); (1, 0)].
Lemma pow10_0 : pow10 0 = 1.
Proof. unfold pow10, ten. apply Rpower_O. lra. Qed.
Lemma one_each i : (i < 2)%nat -> luminosities 2 INR i two_galaxies [pow10 0].
Proof.
  intros Hi. destruct i as [|[|i]]; [| |lia].
  - apply (lum_in _ _ _ (0, 0)); [|apply lum_out; [|constructor]]; unfold belongs; cbn; [repeat split; intros; lra || lia|]. intros (_ & H & _). specialize (H ltac:(lia)). lra.
  - apply lum_out; [|apply (lum_in _ _ _ (1, 0)); [|constructor]]; unfold belongs; cbn; [intros (H & _); lra|]. repeat split; intros; lra || lia.
Qed.
Lemma nl_INR : INR nlbins = 10000.
Proof. unfold nlbins. rewrite mult_INR. replace (INR 100) with 100 by (rewrite INR_IZR_INZ; reflexivity). lra. Qed.
Lemma one_bin lo hi bin : spans lo hi [pow10 0] -> binned nlbins lo hi [pow10 0] bin -> lo = 1 / 2 /\ hi = 3 / 2 /\ bin (pow10 0) = (50 * 100)%nat.
Proof.
  intros Sp B.
  assert (E : lo = 1 / 2 /\ hi = 3 / 2).
  { destruct Sp as [(A & A' & H & _)|(x & A & -> & ->)]; [exfalso; destruct A as [A|[]]; destruct A' as [A'|[]]; lra|]. rewrite <- (A (pow10 0) (or_introl eq_refl)), pow10_0. lra. }
  destruct E as [-> ->]. split; [reflexivity|]. split; [reflexivity|]. destruct (B (pow10 0) (or_introl eq_refl)) as (B1 & B2 & B3). rewrite nl_INR, pow10_0 in *.
  assert (F : INR (50 * 100) = 5000). { rewrite mult_INR. replace (INR 100) with 100 by (rewrite INR_IZR_INZ; reflexivity). replace (INR 50) with 50 by (rewrite INR_IZR_INZ; reflexivity). lra. }
  destruct B3 as [B3|[_ B3]]; [|lra].
  assert (U : (bin 1%R <= 50 * 100)%nat) by (apply INR_le; rewrite F; lra).
  assert (V : (50 * 100 < S (bin 1%R))%nat) by (apply INR_lt; rewrite F, S_INR; lra). lia.
Qed.
Lemma mid_weight : simpson_weight nlbins (50 * 100) = 2 / 3.
Proof.
  unfold simpson_weight, nlbins. destruct (Nat.eqb_spec (50 * 100) 0) as [A|A]; [lia|]. replace (Nat.even (100 * 100)) with true by (now rewrite Nat.even_mul).
  destruct (Nat.eqb_spec (50 * 100) (100 * 100 - 1)); [lia|]. destruct (Nat.eqb_spec (50 * 100) (100 * 100 - 2)); [lia|]. destruct (Nat.eqb_spec (50 * 100) (100 * 100 - 3)); [lia|].
  now rewrite Nat.even_mul.
Qed.
Lemma lum_runs beta gal : exists f g, alignment_gi (lum_amp beta gal) = Ok (Some f) /\ gamma_1h_amp (lum_amp beta gal) = Ok (Some g).
Proof.
  unfold alignment_gi, gamma_1h_amp, lum_amp. cbn [am_central am_satellite am_lpivot_cen am_lpivot_sat am_nz am_z am_file_cen am_file_sat am_beta_two String.eqb Ascii.eqb Bool.eqb andb pivot option_map].
  unfold luminosity_array, compute_luminosity_pdf. cbn [Nat.leb bind]. destruct (lum_table 2 INR nlbins gal). eexists. eexists. split; reflexivity.
Qed.
(** An exponent of zero does not give the amplitude back: here two thirds of it. *)
Theorem C123_normalised_refuted : exists a f, am_central a = "luminosity"%string /\ am_beta_cen a = 0 /\ am_beta_two a = None /\ alignment_gi a = Ok (Some f) /\ 0 < am_gamma2h a /\
  (forall i, (i < am_nz a)%nat -> exists gal l, am_file_cen a = Some gal /\ luminosities (am_nz a) (am_z a) i gal l /\ l <> [] /\ forall t, In t l -> 1 / 2 <= t) /\
  forall i, (i < am_nz a)%nat -> f i = 2 / 3 * am_gamma2h a.
Proof.
  destruct (lum_runs 0 two_galaxies) as (f & g & F & _). exists (lum_amp 0 two_galaxies), f.
  assert (T : forall t, In t [pow10 0] -> 1 / 2 <= t) by (intros t [<-|[]]; rewrite pow10_0; lra).
  split; [reflexivity|]. split; [reflexivity|]. split; [reflexivity|]. split; [exact F|]. split; [cbn; lra|]. split.
  - intros i Hi. exists two_galaxies, [pow10 0]. split; [reflexivity|]. split; [now apply one_each|]. split; [discriminate|exact T].
  - intros i Hi. destruct (C123_central (lum_amp 0 two_galaxies) f i two_galaxies 0 [pow10 0] eq_refl F Hi eq_refl eq_refl (one_each i Hi) ltac:(discriminate) T) as (lo & hi & bin & Sp & B & _ & V).
    destruct (one_bin lo hi bin Sp B) as (_ & _ & E). rewrite V. unfold average. cbn [fold_right List.length INR]. rewrite E, mid_weight. unfold dependence. cbn [am_beta_cen am_beta_two lum_amp am_gamma2h].
    assert (P : forall x, fpow x 0 = 1). { intros x. unfold fpow. destruct (Rle_dec x 0); [destruct (Req_EM_T 0 0); [reflexivity|lra]|apply Rpower_O; lra]. }
    rewrite P. field.
Qed.
Print Assumptions C123_normalised_refuted.
(** With exponent one, the satellites of that sample: two thirds of the middle of the bin. *)
Example C123_case : exists f, gamma_1h_amp (lum_amp 1 two_galaxies) = Ok (Some f) /\ f 0%nat = 3 * (2 / 3 * (1 + 1 / 20000)) /\ f 1%nat = f 0%nat.
Proof.
  destruct (lum_runs 1 two_galaxies) as (g & f & _ & F). exists f. split; [exact F|].
  assert (T : forall t, In t [pow10 0] -> 1 / 2 <= t) by (intros t [<-|[]]; rewrite pow10_0; lra).
  assert (X : forall i, (i < 2)%nat -> f i = 3 * (2 / 3 * (1 + 1 / 20000))).
  { intros i Hi. destruct (C123_satellite (lum_amp 1 two_galaxies) f i two_galaxies 0 [pow10 0] eq_refl F Hi eq_refl eq_refl (one_each i Hi) ltac:(discriminate) T) as (lo & hi & bin & Sp & B & M & V).
    destruct (one_bin lo hi bin Sp B) as (-> & -> & E). rewrite V. unfold average. cbn [fold_right List.length INR]. rewrite E, mid_weight. unfold dependence. cbn [am_beta_sat lum_amp am_gamma1h].
    specialize (M (50 * 100)%nat). rewrite pow10_0. unfold fpow. destruct (Rle_dec _ _) as [C|C]; [exfalso; lra|]. rewrite Rpower_1 by lra.
    unfold middle. rewrite nl_INR. replace (INR (50 * 100)) with 5000; [field|]. rewrite mult_INR. replace (INR 100) with 100 by (rewrite INR_IZR_INZ; reflexivity). replace (INR 50) with 50 by (rewrite INR_IZR_INZ; reflexivity). lra. }
  split; [apply X; lia|]. now rewrite !X by lia.
Qed.

(** ** C124  The legacy module *)
Theorem C124_amplitudes : forall missing wrong columns o b sfx a c b', described columns o b sfx a -> lia_setup missing wrong columns o = Ok c -> lia_execute c b = (b', Ok tt) ->
  exists f g, alignment_gi a = Ok (Some f) /\ gamma_1h_amp a = Ok (Some g) /\
    b' (central_section sfx) "alignment_gi"%string = Some (over_z (am_nz a) f) /\ b' (satellite_section sfx) "alignment_1h"%string = Some (over_z (am_nz a) g) /\
    b' (central_section sfx) "instance"%string = Some (BStr (am_central a)) /\ b' (satellite_section sfx) "instance"%string = Some (BStr (am_satellite a)) /\
    (am_central a = "halo_mass"%string -> exists m, am_mpivot_cen a = Some m /\ b' (central_section sfx) "M_pivot"%string = Some (BDbl (pow10 m)) /\ b' (central_section sfx) "beta"%string = Some (BDbl (am_beta_cen a))) /\
    (am_satellite a = "halo_mass"%string -> exists m, am_mpivot_sat a = Some m /\ b' (satellite_section sfx) "M_pivot"%string = Some (BDbl (pow10 m)) /\ b' (satellite_section sfx) "beta_sat"%string = Some (BDbl (am_beta_sat a))).
Proof. exact (fun missing wrong columns o b sfx a c b' D S => run_values missing wrong columns o b sfx a c D S b'). Qed.
Print Assumptions C124_amplitudes.
Theorem C124_runs : forall missing wrong columns o b sfx a c, described columns o b sfx a -> lia_setup missing wrong columns o = Ok c ->
  ((exists b', lia_execute c b = (b', Ok tt)) <->
   (exists f g, alignment_gi a = Ok (Some f) /\ gamma_1h_amp a = Ok (Some g)) /\ forall s n, written_here (am_central a) (am_satellite a) sfx s n -> b s n = None).
Proof. exact run_ends. Qed.
Print Assumptions C124_runs.
Theorem C124_setup : forall missing wrong columns o b sfx a, described columns o b sfx a ->
  ((exists c, lia_setup missing wrong columns o = Ok c) <->
   (forall d, d = am_central a \/ d = am_satellite a -> d = "constant"%string \/ d = "halo_mass"%string \/ (d = "luminosity"%string /\ (2 <= am_nz a)%nat))).
Proof. exact setup_when. Qed.
Print Assumptions C124_setup.
(** Whatever happens, nothing else is written; without the central amplitude nothing at all. *)
Theorem C124_frame : forall c b b' r s n, lia_execute c b = (b', r) -> ~ written_here (l_central c) (l_satellite c) (l_suffix c) s n -> b' s n = b s n.
Proof. exact run_frame. Qed.
Print Assumptions C124_frame.
Theorem C124_untouched : forall c b b' r, lia_execute c b = (b', r) -> (forall x, ~ reads b (parameters_of (l_suffix c)) "gamma_2h_amplitude" x) -> b' = b /\ exists e, r = Err e.
Proof. exact gamma_needed. Qed.
Print Assumptions C124_untouched.

(** Constant centrals, satellites by halo mass, at three redshifts. *)
Definition lia_options : options := fun n =>
  if String.eqb n "central_IA_depends_on" then Some (OStr "constant") else if String.eqb n "satellite_IA_depends_on" then Some (OStr "halo_mass")
  else if String.eqb n "zmin" then Some (ODbl 0) else if String.eqb n "zmax" then Some (ODbl 1) else if String.eqb n "nz" then Some (OInt 3)
  else if String.eqb n "output_suffix" then Some (OStr "RED") else None.
Definition lia_block (pivot : bool) : dblock := fun s n =>
  if String.eqb s "intrinsic_alignment_parameters_red" then
    if String.eqb n "gamma_2h_amplitude" then Some (BDbl 5) else if String.eqb n "gamma_1h_amplitude" then Some (BInt 2)
    else if String.eqb n "beta_sat" then Some (BDbl 1) else if (String.eqb n "M_pivot" && pivot)%bool then Some (BDbl 0) else None
  else None.
Definition lia_amp (pivot : bool) : amplitudes :=
  {| am_nz := 3; am_z := linspace 0 1 3; am_central := "constant"; am_satellite := "halo_mass"; am_gamma2h := 5; am_gamma1h := 2; am_beta_cen := 0; am_beta_two := None;
     am_beta_sat := 1; am_mpivot_cen := if pivot then Some 0 else None; am_mpivot_sat := if pivot then Some 0 else None; am_lpivot_cen := None; am_lpivot_sat := None; am_file_cen := None; am_file_sat := None |}.
Lemma lia_described columns pivot : described columns lia_options (lia_block pivot) "_red" (lia_amp pivot).
Proof.
  unfold described. cbn. split; [reflexivity|]. split; [reflexivity|]. split; [exists 0, 1; split; [now left|]; split; [now left|reflexivity]|]. split; [reflexivity|].
  split; [exists "RED"%string; split; [left; reflexivity|right; split; [discriminate|reflexivity]]|].
  split; [discriminate|]. split; [discriminate|]. split; [now left|]. split; [right; exists 2%Z; split; [reflexivity|lra]|].
  split; [intros H; now contradiction H|]. split; [intros _; now left|]. split; [reflexivity|]. split; [reflexivity|]. split; [reflexivity|]. split; [|reflexivity].
  destruct pivot; [now left|reflexivity].
Qed.
(** A run that fails at the satellites has written the centrals. *)
Theorem C124_failing_writes_refuted : exists missing wrong columns o b c b' e, lia_setup missing wrong columns o = Ok c /\ lia_execute c b = (b', Err e) /\
  b "ia_large_scale_alignment_red"%string "alignment_gi"%string = None /\ b' "ia_large_scale_alignment_red"%string "alignment_gi"%string = Some (BArr [5 * 1; 5 * 1; 5 * 1]).
Proof.
  exists ""%string, ""%string, (fun _ => Err ""%string), lia_options, (lia_block false). eexists. eexists. eexists.
  split; [cbn; reflexivity|]. split; [cbn; reflexivity|]. split; reflexivity.
Qed.
Print Assumptions C124_failing_writes_refuted.
(** A second run on the block the first one returned fails, whatever the options. *)
Theorem C124_once : forall c b b' r, lia_execute c b = (b', Ok tt) -> lia_execute c b' <> (r, Ok tt).
Proof. exact run_once. Qed.
Print Assumptions C124_once.
Example C124_case : exists c b', lia_setup "" "" (fun _ => Err ""%string) lia_options = Ok c /\ described (fun _ => Err ""%string) lia_options (lia_block true) "_red" (lia_amp true) /\
  lia_execute c (lia_block true) = (b', Ok tt) /\ b' "ia_small_scale_alignment_red"%string "M_pivot"%string = Some (BDbl 1) /\
  b' "ia_large_scale_alignment_red"%string "instance"%string = Some (BStr "constant").
Proof.
  destruct (proj2 (C124_setup ""%string ""%string (fun _ => Err ""%string) lia_options (lia_block true) "_red"%string (lia_amp true) (lia_described _ true))) as (c & C).
  { cbn. intros d [->| ->]; [now left|right; now left]. }
  destruct (proj2 (C124_runs _ _ _ _ _ _ _ c (lia_described (fun _ => Err ""%string) true) C)) as (b' & B).
  { split; [eexists; eexists; split; cbn; reflexivity|]. intros s n H. destruct H as [(-> & _)|(-> & _)]; reflexivity. }
  exists c, b'. split; [exact C|]. split; [apply lia_described|]. split; [exact B|].
  destruct (C124_amplitudes _ _ _ _ _ _ _ c b' (lia_described (fun _ => Err ""%string) true) C B) as (f & g & _ & _ & _ & _ & I & _ & _ & M).
  destruct (M eq_refl) as (m & Em & M1 & _). injection Em as <-. rewrite pow10_0 in M1. split; [exact M1|exact I].
Qed.
