(** Properties C119-C122: the legacy module that combines red and blue spectra and resamples them
    (cosmosis_modules/legacy/add_and_upsample/add_and_upsample.py). *)
From Coq Require Import ZArith Lia Lra.
From Verif Require Import Base Interp HodModel PkModel AddModel AddSpec FftModel RsModel PipeModel OptModel ChainModel PredModel PredSpec AupModel AupSpec AupSpec2
  AupFacts AupFacts2 AupFacts3 AupFacts4 AupFacts5 AupFacts6 AupExample.
Open Scope R_scope.

(** ** C119  Resampling *)
Theorem C119_extrapolated : forall over c b b' s n oz i ze ke z k t, aup_execute over c b = (b', Ok tt) -> grid_of b ze ke -> option_of c s = extrapolates ->
  sample b (a_hext c) n oz -> (1 <= i <= Z.to_nat n)%nat -> has_power b (name_of s ++ a_ext c ++ bin_name n i) z k t ->
  holds b' (name_of s ++ bin_name n i) ze ke (resampled (negb (Z.eqb oz 0)) z k (cell t)).
Proof. exact extrapolation. Qed.
Print Assumptions C119_extrapolated.
Theorem C119_matter : forall over c b b' sec ze ke z k t, aup_execute over c b = (b', Ok tt) -> grid_of b ze ke -> a_mm c = extrapolates ->
  sec = "matter_power_nl"%string \/ (sec = "matter_power_nl_mead"%string /\ over = true) -> has_power b sec z k t ->
  holds b' sec ze ke (resampled true z k (cell t)).
Proof. exact matter. Qed.
Print Assumptions C119_matter.
(** The value is determined, and the nodes of the table keep theirs. *)
Theorem C119_determined : forall beyond z k P zq kq, good_axes z k -> exists! v, resampled beyond z k P zq kq v.
Proof. exact resampled_once. Qed.
Print Assumptions C119_determined.
Theorem C119_nodes : forall beyond z k P j i v, good_axes z k -> (j < List.length z)%nat -> (i < List.length k)%nat ->
  resampled beyond z k P (nth j z 0) (nth i k 0) v -> v = P j i.
Proof. exact resampled_node. Qed.
Print Assumptions C119_nodes.
(** Two bins, zero beyond the table: the first sample has a negative sum, and is taken as it is. *)
Example C119_case : exists b' t, aup_execute true (au_cfg [0; 1]) (au_block [0; 1] [[0; 0]; [1; 1]] [[0; 0]; [0; 0]] 1) = (b', Ok tt) /\
  b' "matter_intrinsic_power_1"%string "p_k"%string = Some (BTab t) /\ cell t 0 1 = -2 /\
  exists t', b' "matter_power_nl"%string "p_k"%string = Some (BTab t') /\ cell t' 0 1 = 2.
Proof.
  assert (R : two_rows [[0; 0]; [1; 1]]) by repeat eexists. assert (B : two_rows [[0; 0]; [0; 0]]) by repeat eexists.
  destruct (au_runs 0 1 _ _ ltac:(lra) R B 0 1) as (b' & H).
  assert (P : has_power (au_block [0; 1] [[0; 0]; [1; 1]] [[0; 0]; [0; 0]] 1) (name_of MI ++ "_in" ++ bin_name 2 1) [0; 1] [1; 2] [[-1; -2]; [-3; 4]]).
  { split; [reflexivity|]. split; [reflexivity|]. split; [reflexivity|]. split; [apply good2; lra|apply shaped2; repeat eexists]. }
  destruct (C119_extrapolated true (au_cfg [0; 1]) _ b' MI 2 0 1 _ _ _ _ _ H (au_grid 0 1 _ _ 1) eq_refl (conj eq_refl eq_refl) ltac:(change (Z.to_nat 2) with 2%nat; lia) P) as (_ & _ & t & T & _ & V).
  destruct (C119_matter true (au_cfg [0; 1]) _ b' _ _ _ _ _ _ H (au_grid 0 1 _ _ 1) eq_refl (or_introl eq_refl) (au_matter 0 1 _ _ 1)) as (_ & _ & t' & T' & _ & V').
  exists b', t. split; [exact H|]. split; [exact T|]. split.
  - exact (C119_nodes _ [0; 1] [1; 2] _ 0 1 _ (good2 0 1 ltac:(lra)) ltac:(cbn; lia) ltac:(cbn; lia) (V 0%nat 1%nat ltac:(cbn; lia) ltac:(cbn; lia))).
  - exists t'. split; [exact T'|]. exact (C119_nodes _ [0; 1] [1; 2] _ 0 1 _ (good2 0 1 ltac:(lra)) ltac:(cbn; lia) ltac:(cbn; lia) (V' 0%nat 1%nat ltac:(cbn; lia) ltac:(cbn; lia))).
Qed.

(** ** C120  Combination *)
Theorem C120_combined : forall over c b b' s n oz i ze ke z k p q fr, aup_execute over c b = (b', Ok tt) -> grid_of b ze ke -> option_of c s = adds -> good_fraction c ->
  sample b (a_hred c) n oz -> (1 <= i <= Z.to_nat n)%nat -> has_power b (name_of s ++ a_red c ++ bin_name n i) z k p ->
  b (name_of s ++ a_blue c ++ bin_name n i)%string "p_k"%string = Some (BTab q) -> shaped z k q ->
  (forall j, (j < List.length z)%nat -> fraction_at c (nth j z 0) (fr j)) ->
  holds b' (name_of s ++ bin_name n i) ze ke (resampled (negb (Z.eqb oz 0)) z k (fun j i => mixed s (fr j) (cell p j i) (cell q j i))).
Proof. exact combination. Qed.
Print Assumptions C120_combined.
(** The fraction is the one of the file where the file has the redshift. *)
Theorem C120_fraction : forall c zf ff z, a_fred c = Some (zf, ff) -> rising zf -> List.length ff = List.length zf ->
  (exists! f, fraction_at c z f) /\ forall j, (j < List.length zf)%nat -> z = nth j zf 0 -> fraction_at c z (nth j ff 0).
Proof. exact fraction_once. Qed.
Print Assumptions C120_fraction.
(** One population split in two: spectra with two tracers come out smaller, by f^2 + (1-f)^2. *)
Theorem C120_same_population_refuted : exists c b b' t p, aup_execute true c b = (b', Ok tt) /\ a_gg c = adds /\ good_fraction c /\
  has_power b "galaxy_power_red" [0; 1] [1; 2] p /\ has_power b "galaxy_power_blue" [0; 1] [1; 2] p /\ a_red c = "_red"%string /\ a_blue c = "_blue"%string /\
  b' "galaxy_power"%string "z"%string = Some (BArr [0; 1 / 2; 2]) /\ b' "galaxy_power"%string "p_k"%string = Some (BTab t) /\ cell p 0 0 = 1 /\ cell t 0 0 = 1 / 2.
Proof.
  assert (R : two_rows [[1; 1]; [1; 1]]) by repeat eexists. destruct (au_runs 0 1 _ _ ltac:(lra) R R (1 / 2) (1 / 2)) as (b' & H).
  destruct (au_values 0 1 _ _ ltac:(lra) R R _ _ b' GG H (or_introl eq_refl)) as (Z' & _ & t & T & _ & V).
  exists (au_cfg [1 / 2; 1 / 2]), (au_block [0; 1] [[1; 1]; [1; 1]] [[1; 1]; [1; 1]] 1), b', t, [[1; 1]; [1; 1]].
  assert (P : forall x, x = "galaxy_power_red"%string \/ x = "galaxy_power_blue"%string -> has_power (au_block [0; 1] [[1; 1]; [1; 1]] [[1; 1]; [1; 1]] 1) x [0; 1] [1; 2] [[1; 1]; [1; 1]]).
  { intros x [->| ->]; (split; [reflexivity|]; split; [reflexivity|]; split; [reflexivity|]; split; [apply good2; lra|now apply shaped2]). }
  split; [exact H|]. split; [reflexivity|]. split; [apply au_fraction|]. split; [apply P; tauto|]. split; [apply P; tauto|].
  split; [reflexivity|]. split; [reflexivity|]. split; [exact Z'|]. split; [exact T|]. split; [reflexivity|].
  rewrite (C119_nodes _ [0; 1] [1; 2] _ 0 0 _ (good2 0 1 ltac:(lra)) ltac:(cbn; lia) ltac:(cbn; lia) (V 0%nat 0%nat ltac:(cbn; lia) ltac:(cbn; lia))).
  rewrite line_unit. unfold mixed. cbn. field.
Qed.
Print Assumptions C120_same_population_refuted.
(** Beyond the file the fraction leaves the unit interval, and positive spectra give a negative one. *)
Theorem C120_positive_refuted : exists c b b' t p q zf ff, aup_execute true c b = (b', Ok tt) /\ a_gm c = adds /\ a_fred c = Some (zf, ff) /\ rising zf /\
  List.length ff = List.length zf /\ (forall f, In f ff -> 0 <= f <= 1) /\ a_red c = "_red"%string /\ a_blue c = "_blue"%string /\
  b "matter_galaxy_power_red"%string "p_k"%string = Some (BTab p) /\ b "matter_galaxy_power_blue"%string "p_k"%string = Some (BTab q) /\
  (forall r x, In r p -> In x r -> 0 < x) /\ (forall r x, In r q -> In x r -> 0 < x) /\
  b' "matter_galaxy_power"%string "p_k"%string = Some (BTab t) /\ cell t 2 0 = -1.
Proof.
  assert (R : two_rows [[1; 1]; [1; 1]]) by repeat eexists. assert (B : two_rows [[3; 3]; [3; 3]]) by repeat eexists.
  destruct (au_runs 0 2 _ _ ltac:(lra) R B 0 1) as (b' & H).
  destruct (au_values 0 2 _ _ ltac:(lra) R B _ _ b' GM H (or_intror eq_refl)) as (Z' & _ & t & T & _ & V).
  exists (au_cfg [0; 1]), (au_block [0; 2] [[1; 1]; [1; 1]] [[3; 3]; [3; 3]] 1), b', t, [[1; 1]; [1; 1]], [[3; 3]; [3; 3]], [0; 1], [0; 1].
  split; [exact H|]. split; [reflexivity|]. split; [reflexivity|]. split; [apply rising2; lra|]. split; [reflexivity|]. split; [intros f [<-|[<-|[]]]; lra|].
  split; [reflexivity|]. split; [reflexivity|]. split; [reflexivity|]. split; [reflexivity|].
  split; [intros r x [<-|[<-|[]]] [<-|[<-|[]]]; lra|]. split; [intros r x [<-|[<-|[]]] [<-|[<-|[]]]; lra|]. split; [exact T|].
  pose proof (V 2%nat 0%nat ltac:(cbn; lia) ltac:(cbn; lia)) as W. change (nth 2 [0; 1 / 2; 2] 0) with (nth 1 [0; 2] 0) in W.
  rewrite (C119_nodes _ [0; 2] [1; 2] _ 1 0 _ (good2 0 2 ltac:(lra)) ltac:(cbn; lia) ltac:(cbn; lia) W). rewrite line_unit. unfold mixed. cbn. ring.
Qed.
Print Assumptions C120_positive_refuted.
Example C120_case : exists b' t, aup_execute true (au_cfg [0; 1]) (au_block [0; 1 / 2] [[1; 2]; [3; 4]] [[5; 6]; [7; 8]] 1) = (b', Ok tt) /\
  b' "galaxy_power"%string "p_k"%string = Some (BTab t) /\ cell t 1 1 = 1 / 4 * 4 + 1 / 4 * 8 /\
  exists t', b' "matter_galaxy_power"%string "p_k"%string = Some (BTab t') /\ cell t' 1 1 = 1 / 2 * 4 + 1 / 2 * 8.
Proof.
  assert (R : two_rows [[1; 2]; [3; 4]]) by repeat eexists. assert (B : two_rows [[5; 6]; [7; 8]]) by repeat eexists.
  destruct (au_runs 0 (1 / 2) _ _ ltac:(lra) R B 0 1) as (b' & H).
  destruct (au_values 0 (1 / 2) _ _ ltac:(lra) R B _ _ b' GG H (or_introl eq_refl)) as (_ & _ & t & T & _ & V).
  destruct (au_values 0 (1 / 2) _ _ ltac:(lra) R B _ _ b' GM H (or_intror eq_refl)) as (_ & _ & t' & T' & _ & V').
  exists b', t. split; [exact H|]. split; [exact T|].
  pose proof (V 1%nat 1%nat ltac:(cbn; lia) ltac:(cbn; lia)) as W. pose proof (V' 1%nat 1%nat ltac:(cbn; lia) ltac:(cbn; lia)) as W'.
  change (nth 1 [0; 1 / 2; 2] 0) with (nth 1 [0; 1 / 2] 0) in W, W'. split.
  - rewrite (C119_nodes _ [0; 1 / 2] [1; 2] _ 1 1 _ (good2 0 (1 / 2) ltac:(lra)) ltac:(cbn; lia) ltac:(cbn; lia) W). rewrite line_unit. unfold mixed. cbn. field.
  - exists t'. split; [exact T'|]. rewrite (C119_nodes _ [0; 1 / 2] [1; 2] _ 1 1 _ (good2 0 (1 / 2) ltac:(lra)) ltac:(cbn; lia) ltac:(cbn; lia) W'). rewrite line_unit. unfold mixed. cbn. field.
Qed.

(** ** C121  Runs, failures and the rest of the block *)
Theorem C121_runs : forall over c b ze ke, grid_of b ze ke -> complete c b -> (over = true \/ forall sec, output c b sec -> b sec "p_k"%string = None) ->
  exists b', aup_execute over c b = (b', Ok tt).
Proof. exact runs. Qed.
Print Assumptions C121_runs.
Theorem C121_needs : forall over c b b' ze ke s, aup_execute over c b = (b', Ok tt) -> grid_of b ze ke ->
  (a_mm c = extrapolates -> exists z k p, b "matter_power_nl"%string "z"%string = Some (BArr z) /\ b "matter_power_nl"%string "k_h"%string = Some (BArr k) /\
     b "matter_power_nl"%string "p_k"%string = Some (BTab p) /\ shaped z k p) /\
  (option_of c s = extrapolates -> exists n oz, sample b (a_hext c) n oz /\ forall i, (1 <= i <= Z.to_nat n)%nat -> exists z k p,
     let sec := (name_of s ++ a_ext c ++ bin_name n i)%string in
     b sec "z"%string = Some (BArr z) /\ b sec "k_h"%string = Some (BArr k) /\ b sec "p_k"%string = Some (BTab p) /\ shaped z k p) /\
  (option_of c s = adds -> exists n oz, sample b (a_hred c) n oz /\ b (a_hblue c) "nbins"%string = Some (BInt n) /\ forall i, (1 <= i <= Z.to_nat n)%nat ->
     a_fred c <> None /\ exists z k p q,
     let sec := (name_of s ++ a_red c ++ bin_name n i)%string in
     b sec "z"%string = Some (BArr z) /\ b sec "k_h"%string = Some (BArr k) /\ b sec "p_k"%string = Some (BTab p) /\
     b (name_of s ++ a_blue c ++ bin_name n i)%string "p_k"%string = Some (BTab q) /\ shaped z k p /\ shaped z k q).
Proof. exact needs. Qed.
Print Assumptions C121_needs.
(** Whatever happens, nothing else is written. *)
Theorem C121_frame : forall over c b b' r s n, aup_execute over c b = (b', r) ->
  ~ (output c b s /\ (n = "z" \/ n = "k_h" \/ n = "p_k")%string) -> b' s n = b s n.
Proof. exact run_frame. Qed.
Print Assumptions C121_frame.
(** Unequal numbers of bins are noticed after the extrapolations have been written. *)
Theorem C121_bins_differ : forall over c b b1 s n m, aup_execute over (only_extrapolating c) b = (b1, Ok tt) -> option_of c s = adds ->
  b (a_hred c) "nbins"%string = Some (BInt n) -> b (a_hblue c) "nbins"%string = Some (BInt m) -> n <> m -> aup_execute over c b = (b1, Err "Exception").
Proof. exact bins_differ. Qed.
Print Assumptions C121_bins_differ.
Theorem C121_mead_optional : forall over c b b' ze ke n, aup_execute over c b = (b', Ok tt) -> grid_of b ze ke -> b "matter_power_nl_mead"%string "p_k"%string = None ->
  b' "matter_power_nl_mead"%string n = b "matter_power_nl_mead"%string n.
Proof. exact mead_dropped. Qed.
Print Assumptions C121_mead_optional.
(** Where put_grid does not replace, a run ends well only with no table in the way; matter, which
    is resampled in place, then never does. *)
Theorem C121_in_place : forall c b b' ze ke, aup_execute false c b = (b', Ok tt) -> grid_of b ze ke ->
  a_mm c <> extrapolates /\ forall sec, output c b sec -> sec <> "matter_power_nl_mead"%string -> b sec "p_k"%string = None.
Proof. exact in_place. Qed.
Print Assumptions C121_in_place.
Theorem C121_setup : forall missing wrong loadtxt o c, aup_setup missing wrong loadtxt o = Ok c <->
  o "do_p_mm"%string = Some (a_mm c) /\ o "do_p_gg"%string = Some (a_gg c) /\ o "do_p_gm"%string = Some (a_gm c) /\
  o "do_p_mI"%string = Some (a_mI c) /\ o "do_p_II"%string = Some (a_II c) /\ o "do_p_gI"%string = Some (a_gI c) /\
  ((exists s, option_of c s = adds) -> exists file t, o "f_red_file"%string = Some file /\ loadtxt file = Ok t /\ a_fred c = Some t) /\
  ((forall s, option_of c s <> adds) -> a_fred c = None) /\
  (exists v, text o "hod_section_name_extrap" "hod" v /\ a_hext c = lower v) /\
  (exists v, text o "hod_section_name_red" "hod_red" v /\ a_hred c = lower v) /\
  (exists v, text o "hod_section_name_blue" "hod_blue" v /\ a_hblue c = lower v) /\
  (exists v, text o "input_power_suffix_extrap" "" v /\ part_of_name (lower v) (a_ext c)) /\
  (exists v, text o "input_power_suffix_red" "red" v /\ part_of_name (lower v) (a_red c)) /\
  (exists v, text o "input_power_suffix_blue" "blue" v /\ part_of_name (lower v) (a_blue c)).
Proof. exact setup_iff. Qed.
Print Assumptions C121_setup.
Example C121_case : grid_of (au_block [0; 1] [[0; 0]; [1; 1]] [[0; 0]; [0; 0]] 1) [0; 1 / 2; 2] [1; 2] /\
  complete (au_cfg [0; 1]) (au_block [0; 1] [[0; 0]; [1; 1]] [[0; 0]; [0; 0]] 1) /\
  exists b1, aup_execute true (only_extrapolating (au_cfg [0; 1])) (au_block [0; 1] [[0; 0]; [1; 1]] [[0; 0]; [0; 0]] 3) = (b1, Ok tt) /\
    au_block [0; 1] [[0; 0]; [1; 1]] [[0; 0]; [0; 0]] 3 "hod_blue"%string "nbins"%string = Some (BInt 3).
Proof.
  assert (R : two_rows [[0; 0]; [1; 1]]) by repeat eexists. assert (B : two_rows [[0; 0]; [0; 0]]) by repeat eexists.
  split; [apply au_grid|]. split; [exact (au_complete 0 1 _ _ ltac:(lra) R B 0 1)|].
  destruct (runs true (only_extrapolating (au_cfg [0; 1])) (au_block [0; 1] [[0; 0]; [1; 1]] [[0; 0]; [0; 0]] 3) [0; 1 / 2; 2] [1; 2]) as (b1 & H1); [apply au_grid| |now left|].
  - split; [|split].
    + intros _. exists [0; 1], [1; 2], [[1; 2]; [3; 4]]. apply au_matter.
    + intros s E. destruct s; cbn in E; try discriminate E. exists 2%Z, 0%Z. split; [split; reflexivity|]. intros i Hi. change (Z.to_nat 2) with 2%nat in Hi.
      destruct (au_in 0 1 [[0; 0]; [1; 1]] [[0; 0]; [0; 0]] i 3 Hi) as (t & _ & T). exists [0; 1], [1; 2], t. exact T.
    + intros s E. destruct s; cbn in E; discriminate E.
  - exists b1. split; [exact H1|reflexivity].
Qed.

(** ** C122  The combination of src/onepower/add.py *)
Theorem C122_agrees : forall over c b b' s n oz i ze ke z k p q zf ff (A : api) (u : uparams A) heap r1 r2 bin,
  aup_execute over c b = (b', Ok tt) -> grid_of b ze ke -> option_of c s = adds -> a_fred c = Some (zf, ff) -> rising zf -> List.length ff = List.length zf ->
  sample b (a_hred c) n oz -> (1 <= i <= Z.to_nat n)%nat -> has_power b (name_of s ++ a_red c ++ bin_name n i) z k p ->
  b (name_of s ++ a_blue c ++ bin_name n i)%string "p_k"%string = Some (BTab q) -> shaped z k q ->
  same_request u ze ke zf ff (negb (Z.eqb oz 0)) -> first_is u heap r1 -> second_is u heap r1 r2 ->
  population A (heap r1) s bin z k p -> population A (heap r2) s bin z k q -> (0 < List.length ze)%nat ->
  exists v t, answer u heap (mode_name s) "tot" = Ok v /\ b' (name_of s ++ bin_name n i)%string "p_k"%string = Some (BTab t) /\
    forall j l, (j < List.length ze)%nat -> (l < List.length ke)%nat -> In (nth j ze 0) z \/ (exists F, forall x, In x ff -> x = F) -> cell t j l = r_val v bin j l.
Proof. exact agrees. Qed.
Print Assumptions C122_agrees.
(** Populations with given tables. *)
Definition au_api : api :=
  {| obj := list (list R); prm := list (list R); construct := fun t => Ok t; update_obj := fun _ t => Ok t;
     o_nz := fun _ => 2%nat; o_z := fun _ j => nth j [0; 1] 0; o_nk := fun _ => 2%nat; o_k := fun _ i => nth i [1; 2] 0;
     o_spec := fun t _ => Ok {| pk_1h := fun _ _ _ => 0; pk_2h := fun _ => cell t; pk_tot := fun _ => cell t; pk_bias := None |} |}.
Definition au_request (ff : list R) (blue : list (list R)) : uparams au_api :=
  {| u_nz := 3; u_z := fun j => nth j [0; 1 / 2; 2] 0; u_nk := 2; u_k := fun i => nth i [1; 2] 0; u_fz := Some (2%nat, fun i => nth i [0; 1] 0);
     u_f := Some (2%nat, fun i => nth i ff 0); u_model := Some 0%nat; u_m1 := ([] : prm au_api); u_m2 := Some (blue : prm au_api); u_fill := Extrapolate |}.
Definition au_heap (red blue : list (list R)) : nat -> obj au_api := fun r => match r with O => red | _ => blue end.
Lemma au_same f0 f1 blue : same_request (au_request [f0; f1] blue) [0; 1 / 2; 2] [1; 2] [0; 1] [f0; f1] (negb (Z.eqb 1 0)).
Proof. repeat split. Qed.
Lemma au_population t s : population au_api (t : obj au_api) s 0 [0; 1] [1; 2] t.
Proof. repeat split. eexists. split; [reflexivity|]. intros j i _ _. reflexivity. Qed.
(** Between the redshifts of the tables the two differ: here 1/2 against 1/4. *)
Theorem C122_same_refuted : exists c b b' s n oz i ze ke z k p q zf ff (u : uparams au_api) heap r1 r2 v t,
  aup_execute true c b = (b', Ok tt) /\ grid_of b ze ke /\ option_of c s = adds /\ a_fred c = Some (zf, ff) /\ rising zf /\ List.length ff = List.length zf /\
  sample b (a_hred c) n oz /\ (1 <= i <= Z.to_nat n)%nat /\ has_power b (name_of s ++ a_red c ++ bin_name n i) z k p /\
  b (name_of s ++ a_blue c ++ bin_name n i)%string "p_k"%string = Some (BTab q) /\ shaped z k q /\
  same_request u ze ke zf ff (negb (Z.eqb oz 0)) /\ first_is u heap r1 /\ second_is u heap r1 r2 /\
  population au_api (heap r1) s 0 z k p /\ population au_api (heap r2) s 0 z k q /\
  answer u heap (mode_name s) "tot" = Ok v /\ b' (name_of s ++ bin_name n i)%string "p_k"%string = Some (BTab t) /\
  cell t 1 0 = 1 / 2 /\ r_val v 0%nat 1%nat 0%nat = 1 / 4.
Proof.
  set (red := [[0; 0]; [1; 1]]). set (blue := [[0; 0]; [0; 0]]).
  assert (R : two_rows red) by repeat eexists. assert (B : two_rows blue) by repeat eexists.
  destruct (au_runs 0 1 red blue ltac:(lra) R B 0 1) as (b' & H).
  destruct (au_values 0 1 red blue ltac:(lra) R B _ _ b' GM H (or_intror eq_refl)) as (_ & _ & t & T & _ & V).
  destruct (au_red 0 1 red blue ltac:(lra) R GM 1 (or_intror eq_refl)) as [P1 P2].
  assert (G : good_axes [0; 1] [1; 2]) by (apply good2; lra).
  destruct (add_answer au_api (au_request [0; 1] blue) (au_heap red blue) 0 1 GM 0 _ _ _ _ _ _ _ red _ _ blue (au_same 0 1 blue) eq_refl ltac:(exists blue; split; reflexivity)
    (rising2 0 1 ltac:(lra)) eq_refl (au_population red GM) (au_population blue GM) G G ltac:(cbn; lia)) as (v & Av & W).
  exists (au_cfg [0; 1]), (au_block [0; 1] red blue 1), b', GM, 1%Z, 1%Z, 1%nat, [0; 1 / 2; 2], [1; 2], [0; 1], [1; 2], red, blue, [0; 1], [0; 1], (au_request [0; 1] blue), (au_heap red blue), 0%nat, 1%nat, v, t.
  split; [exact H|]. split; [apply au_grid|]. split; [reflexivity|]. split; [reflexivity|]. split; [apply rising2; lra|]. split; [reflexivity|]. split; [split; reflexivity|].
  split; [change (Z.to_nat 1) with 1%nat; lia|]. split; [exact P1|]. split; [exact P2|]. split; [now apply shaped2|]. split; [apply au_same|]. split; [reflexivity|]. split; [exists blue; split; reflexivity|].
  split; [apply au_population|]. split; [apply au_population|]. split; [exact Av|]. split; [exact T|].
  (* A table that does not depend on the wavenumber, at redshift 1/2. *)
  assert (Half : forall a c, resampled true [0; 1] [1; 2] (fun j i => match j with O => a | _ => c end) (1 / 2) 1 ((a + c) / 2)).
  { intros a c. exists [(a + c) / 2; (a + c) / 2]. split; [reflexivity|]. split.
    - intros [|[|i]] Hi; cbn in Hi; [| |lia]; (exists 0%nat; split; [cbn; lia|]; split; [now left|]; split; [now left|]; cbn; field).
    - exists 0%nat. split; [cbn; lia|]. split; [now left|]. split; [now left|]. cbn. field. pose proof (ln_increasing 1 2 ltac:(lra) ltac:(lra)). lra. }
  assert (X : forall P a c v, (forall j i, (j < 2)%nat -> (i < 2)%nat -> P j i = match j with O => a | _ => c end) -> resampled true [0; 1] [1; 2] P (1 / 2) 1 v -> v = (a + c) / 2).
  { intros P a c w E Hw. apply resampled_only in Hw; [|exact G]. rewrite Hw. rewrite (value_ext _ [0; 1] [1; 2] P (fun j i => match j with O => a | _ => c end)); [|cbn; lia|cbn; lia|intros; now apply E].
    symmetry. apply resampled_only; [exact G|]. apply Half. }
  split.
  - rewrite (X _ 0 1 _) with (2 := V 1%nat 0%nat ltac:(cbn; lia) ltac:(cbn; lia)); [field|].
    intros [|[|j]] [|[|i]] Hj Hi; try lia; rewrite line_unit; unfold mixed; cbn; ring.
  - rewrite (W 1%nat 0%nat ltac:(cbn; lia) ltac:(cbn; lia)). change (nth 1 [0; 1 / 2; 2] 0) with (1 / 2). change (nth 0 [1; 2] 0) with 1. change (negb (Z.eqb 1 0)) with true.
    rewrite (X (cell red) 0 1 (value (mode true) [0; 1] [1; 2] (cell red) (1 / 2) 1)); [|intros [|[|j]] [|[|i]] Hj Hi; try lia; reflexivity|now apply value_resampled].
    rewrite (X (cell blue) 0 0 (value (mode true) [0; 1] [1; 2] (cell blue) (1 / 2) 1)); [|intros [|[|j]] [|[|i]] Hj Hi; try lia; reflexivity|now apply value_resampled].
    rewrite line_unit. unfold mixed. cbn. field.
Qed.
Print Assumptions C122_same_refuted.
(** The same two populations agree at the redshift 0 of the tables; for a constant fraction they
    agree everywhere. *)
Example C122_case : exists b' v t, aup_execute true (au_cfg [1 / 3; 1 / 3]) (au_block [0; 1] [[0; 0]; [1; 1]] [[2; 0]; [3; 0]] 1) = (b', Ok tt) /\
  answer (au_request [1 / 3; 1 / 3] [[2; 0]; [3; 0]]) (au_heap [[0; 0]; [1; 1]] [[2; 0]; [3; 0]]) "gg" "tot" = Ok v /\
  b' "galaxy_power"%string "p_k"%string = Some (BTab t) /\ forall j l, (j < 3)%nat -> (l < 2)%nat -> cell t j l = r_val v 0%nat j l.
Proof.
  set (red := [[0; 0]; [1; 1]]). set (blue := [[2; 0]; [3; 0]]).
  assert (R : two_rows red) by repeat eexists. assert (B : two_rows blue) by repeat eexists.
  destruct (au_runs 0 1 red blue ltac:(lra) R B (1 / 3) (1 / 3)) as (b' & H). destruct (au_red 0 1 red blue ltac:(lra) R GG 1 (or_introl eq_refl)) as [P1 P2].
  destruct (C122_agrees true _ _ b' GG 1 1 1 _ _ _ _ red blue [0; 1] [1 / 3; 1 / 3] au_api (au_request [1 / 3; 1 / 3] blue) (au_heap red blue) 0 1 0 H (au_grid 0 1 red blue 1) eq_refl eq_refl
    (rising2 0 1 ltac:(lra)) eq_refl (conj eq_refl eq_refl) ltac:(change (Z.to_nat 1) with 1%nat; lia) P1 P2 (shaped2 0 1 blue B) (au_same _ _ blue) eq_refl ltac:(exists blue; split; reflexivity)
    (au_population red GG) (au_population blue GG) ltac:(cbn; lia)) as (v & t & Av & T & V).
  exists b', v, t. split; [exact H|]. split; [exact Av|]. split; [exact T|]. intros j l Hj Hl. apply V; [exact Hj|exact Hl|]. right. exists (1 / 3). intros x [<-|[<-|[]]]; reflexivity.
Qed.
