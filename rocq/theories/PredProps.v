(** Properties of predict_observable.py and of its input from onepower_interface.py: C108-C112.
    Vocabulary: PredSpec. *)
From Coq Require Import ZArith Ascii.
From Verif Require Import Base Spec Quad Interp FftModel RsModel PipeModel OptModel ChainModel PredModel PredSpec PredFacts PredFacts2 PredFacts3 PredFacts4 PredFacts5.
Open Scope R_scope.

(** * C108  setup *)
(** What a successful setup holds: one entry of the limits and counts per suffix, and observable
    values at the centres of equal bins in log10, or log-spaced from limit to limit. *)
Theorem C108_grids : forall missing wrong o suffixes n_obs loadtxt data c,
  pred_setup missing wrong o suffixes n_obs loadtxt data = Ok c ->
  let k := List.length (p_suffixes c) in
  p_suffixes c = (match suffixes with Some l => l | None => ["_1"%string] end) /\
  get_array missing o "log10_obs_min" = Ok (p_min c) /\ get_array missing o "log10_obs_max" = Ok (p_max c) /\
  get_array missing o "zmin" = Ok (p_zmin c) /\ get_array missing o "zmax" = Ok (p_zmax c) /\ n_obs = Ok (p_n c) /\
  List.length (p_min c) = k /\ List.length (p_max c) = k /\ List.length (p_n c) = k /\ List.length (p_obs c) = k /\
  (p_weighted c = true -> p_edges c = true) /\
  forall i, (i < k)%nat ->
    let q := nth i (p_obs c) [] in let n := Z.to_nat (nth i (p_n c) 0%Z) in
    let lo := nth i (p_min c) 0 in let hi := nth i (p_max c) 0 in
    List.length q = n /\
    forall j, (j < n)%nat ->
      (p_edges c = true -> nth j q 0 = Rpower 10 (lo + (INR j + 1 / 2) * ((hi - lo) / INR n))) /\
      (p_edges c = false -> (2 <= n)%nat -> nth j q 0 = Rpower 10 (lo + INR j * ((hi - lo) / INR (n - 1)))).
Proof.
  intros missing wrong o suffixes n_obs loadtxt data c H k. destruct (setup_parts _ _ _ _ _ _ _ _ H) as (A & _ & B1 & B2 & B3 & B4 & B5 & L1 & L2 & L3 & W & O).
  destruct (obs_arrays_nth _ _ _ _ _ O ltac:(congruence) ltac:(congruence)) as [L V].
  assert (LO : List.length (p_obs c) = k) by (unfold k; congruence).
  repeat (split; [assumption|]). intros i Hi q n lo hi. specialize (V i ltac:(rewrite L1; exact Hi)). fold lo hi n q in V. split.
  - destruct (p_edges c); [apply values_centres in V as [V _]|apply values_logspace in V as [V _]]; exact V.
  - intros j Hj. split.
    + intro E. rewrite E in V. apply values_centres in V as [_ V]. now apply V.
    + intros E N. rewrite E in V. apply values_logspace in V as [_ V]. now apply V.
Qed.
Print Assumptions C108_grids.

(** Options that can all be read are still refused when the limits or counts are not one per
    suffix, and when weighted binning is asked for without edges. *)
Theorem C108_rejects : forall missing wrong o suffixes n_obs loadtxt data inp out cor smp file wt lo hi zmin zmax n ed,
  get_string missing wrong o "input_section_name" (Some "stellar_mass_function"%string) = Ok inp ->
  get_string missing wrong o "output_section_name" (Some "obs_out"%string) = Ok out ->
  get_bool missing wrong o "correct_cosmo" (Some false) = Ok cor ->
  (suffixes <> None -> get_string missing wrong o "sample" None = Ok smp) ->
  get_string missing wrong o "obs_dist_file" (Some ""%string) = Ok file ->
  get_bool missing wrong o "weighted_binning" (Some false) = Ok wt ->
  get_array missing o "log10_obs_min" = Ok lo -> get_array missing o "log10_obs_max" = Ok hi ->
  get_array missing o "zmin" = Ok zmin -> get_array missing o "zmax" = Ok zmax -> n_obs = Ok n ->
  get_bool missing wrong o "edges" (Some false) = Ok ed ->
  let k := List.length (match suffixes with Some l => l | None => ["_1"%string] end) in
  (List.length lo <> k \/ List.length hi <> k \/ List.length n <> k) \/
  (wt = true /\ ed = false /\ forall m, In m n -> (0 <= m)%Z) ->
  pred_setup missing wrong o suffixes n_obs loadtxt data = Err "ValueError".
Proof. exact setup_lengths. Qed.
Print Assumptions C108_rejects.

(** Two bins, edges given. *)
Definition C108_options : options := fun n =>
  if String.eqb n "sample" then Some (OStr "nz") else if String.eqb n "edges" then Some (OBool true)
  else if String.eqb n "log10_obs_min" then Some (OArr [9; 10]) else if String.eqb n "log10_obs_max" then Some (OArr [10; 11])
  else if String.eqb n "zmin" then Some (OArr [0; 0]) else if String.eqb n "zmax" then Some (OArr [1; 1]) else None.
Example C108_case : exists c, pred_setup "m" "w" C108_options (Some ["1"; "2"]%string) (Ok [3%Z; 4%Z]) (fun _ => Err "e") (Err "e") = Ok c /\
  List.length (nth 1 (p_obs c) []) = 4%nat.
Proof. eexists. split; reflexivity. Qed.
Example C108_rejects_case : pred_setup "m" "w" C108_options (Some ["1"; "2"]%string) (Ok [3%Z]) (fun _ => Err "e") (Err "e") = Err "ValueError".
Proof. reflexivity. Qed.

(** * C109  predictions *)
Theorem C109_flat : forall zero_div mk c b b' i x y, pred_execute zero_div mk c b = (b', Ok tt) -> p_weighted c = false -> p_cosmo c = None ->
  (i < List.length (p_suffixes c))%nat -> has_flat b (p_in c) (nth i (p_suffixes c) ""%string) x y -> rising x ->
  exists v, written b' (p_out c) (i + 1) v (nth i (p_obs c) []) /\ List.length v = List.length (nth i (p_obs c) []) /\
    forall j, (j < List.length v)%nat -> says x y (nth j (nth i (p_obs c) []) 0) (nth j v 0).
Proof. exact flat_values. Qed.
Print Assumptions C109_flat.

Theorem C109_redshift : forall zero_div mk c b b' i z x t sample zn nn,
  pred_execute zero_div mk c b = (b', Ok tt) -> p_weighted c = false -> p_cosmo c = None ->
  (i < List.length (p_suffixes c))%nat -> has_table b (p_in c) (nth i (p_suffixes c) ""%string) z x t ->
  p_sample c = Some sample -> has_nz b sample (i + 1) zn nn -> rising x -> rising zn -> (1 <= List.length z)%nat ->
  exists v w, written b' (p_out c) (i + 1) v (nth i (p_obs c) []) /\ List.length v = List.length (nth i (p_obs c) []) /\
    (forall k, (k < List.length z)%nat -> says zn nn (nth k z 0) (w k)) /\
    forall j, (j < List.length v)%nat -> exists f,
      (forall k, (k < List.length z)%nat -> says x (nth k t []) (nth j (nth i (p_obs c) []) 0) (f k)) /\
      nth j v 0 = simpson (List.length z) (fun k => w k * f k) (fun k => nth k z 0).
Proof. exact table_values. Qed.
Print Assumptions C109_redshift.

(** A function of the observable alone, averaged over a distribution that Simpson's rule
    integrates to one, is predicted as it is. *)
Theorem C109_average : forall zero_div mk c b b' i z x t y sample zn nn w,
  pred_execute zero_div mk c b = (b', Ok tt) -> p_weighted c = false -> p_cosmo c = None ->
  (i < List.length (p_suffixes c))%nat -> has_table b (p_in c) (nth i (p_suffixes c) ""%string) z x t ->
  p_sample c = Some sample -> has_nz b sample (i + 1) zn nn -> rising x -> rising zn -> (1 <= List.length z)%nat ->
  (forall k, (k < List.length z)%nat -> nth k t [] = y) ->
  (forall k, (k < List.length z)%nat -> says zn nn (nth k z 0) (w k)) -> simpson (List.length z) w (fun k => nth k z 0) = 1 ->
  exists v, written b' (p_out c) (i + 1) v (nth i (p_obs c) []) /\ List.length v = List.length (nth i (p_obs c) []) /\
    forall j, (j < List.length v)%nat -> says x y (nth j (nth i (p_obs c) []) 0) (nth j v 0).
Proof. exact table_average. Qed.
Print Assumptions C109_average.

(** One table has one value at a point. *)
Theorem C109_says : forall x y q v v', rising x -> says x y q v -> says x y q v' -> v = v'.
Proof. intros x y q v v' H A B. now rewrite (says_only _ _ _ _ H A), (says_only _ _ _ _ H B). Qed.
Print Assumptions C109_says.

Theorem C109_frame : forall zero_div mk c b b', pred_execute zero_div mk c b = (b', Ok tt) ->
  b' (p_out c) "nbin"%string = Some (BInt (Z.of_nat (List.length (p_suffixes c)))) /\
  b' (p_out c) "sample"%string = Some (BStr (match p_sample c with Some s => s | None => "None" end)) /\
  (forall s n, s <> p_out c -> b' s n = b s n) /\
  (forall n v, b (p_out c) n = Some v -> n <> "nbin"%string -> n <> "sample"%string -> b' (p_out c) n = Some v).
Proof. exact frame. Qed.
Print Assumptions C109_frame.

Theorem C109_runs : forall zero_div mk c b, p_weighted c = false -> p_cosmo c = None -> fresh b (p_out c) (List.length (p_suffixes c)) ->
  (forall i, (i < List.length (p_suffixes c))%nat -> exists x y, has_flat b (p_in c) (nth i (p_suffixes c) ""%string) x y) ->
  exists b', pred_execute zero_div mk c b = (b', Ok tt).
Proof. exact flat_runs. Qed.
Print Assumptions C109_runs.

Theorem C109_runs_tables : forall zero_div mk c b sample, p_weighted c = false -> p_cosmo c = None -> p_sample c = Some sample ->
  fresh b (p_out c) (List.length (p_suffixes c)) ->
  (forall i, (i < List.length (p_suffixes c))%nat -> exists z x t, has_table b (p_in c) (nth i (p_suffixes c) ""%string) z x t) ->
  (forall i, (i < List.length (p_suffixes c))%nat -> exists zn nn, has_nz b sample (i + 1) zn nn) ->
  exists b', pred_execute zero_div mk c b = (b', Ok tt).
Proof. exact table_runs. Qed.
Print Assumptions C109_runs_tables.

(** A second run on the same block is refused. *)
Theorem C109_once : forall zero_div mk c b b', pred_execute zero_div mk c b = (b', Ok tt) -> (0 < List.length (p_suffixes c))%nat ->
  exists b2 e, pred_execute zero_div mk c b' = (b2, Err e).
Proof. exact runs_once. Qed.
Print Assumptions C109_once.

(** A bin tabulated at one redshift is predicted to be zero, whatever its function. *)
Theorem C109_single_redshift_refuted : forall zero_div mk c b b' i z0 x t sample zn nn,
  pred_execute zero_div mk c b = (b', Ok tt) -> p_weighted c = false -> p_cosmo c = None ->
  (i < List.length (p_suffixes c))%nat -> has_table b (p_in c) (nth i (p_suffixes c) ""%string) [z0] x t ->
  p_sample c = Some sample -> has_nz b sample (i + 1) zn nn -> rising x -> rising zn ->
  exists v, written b' (p_out c) (i + 1) v (nth i (p_obs c) []) /\ forall j, nth j v 0 = 0.
Proof. exact single_redshift. Qed.
Print Assumptions C109_single_redshift_refuted.

Example C109_case : forall zero_div mk, (exists b', pred_execute zero_div mk (pe_cfg false None None) pe_flat = (b', Ok tt)) /\
  has_flat pe_flat "stellar_mass_function" "1" pe_x [4; 5; 6] /\ rising pe_x /\
  (exists b', pred_execute zero_div mk (pe_cfg false None None) pe_block = (b', Ok tt)) /\
  has_table pe_block "stellar_mass_function" "1" [0; 1; 2] pe_x [[4; 5; 6]; [4; 5; 6]; [7; 8; 9]] /\
  has_nz pe_block "nz" 1 [0; 1; 2] [1; 1 / 2; 0] /\ rising [0; 1; 2].
Proof.
  intros zd mk. split; [apply pe_flat_runs|]. split; [exact pe_has_flat|]. split; [exact pe_rising|]. split; [apply pe_table_runs|].
  split; [exact pe_has_table|]. split; [exact pe_has_nz|exact pe_z_rising].
Qed.
(** The distribution of the example is normalised. *)
Example C109_average_case : (forall k, (k < 3)%nat -> says [0; 1; 2] [1; 1 / 2; 0] (nth k [0; 1; 2] 0) (nth k [1; 1 / 2; 0] 0)) /\
  simpson 3 (fun k => nth k [1; 1 / 2; 0] 0) (fun k => nth k [0; 1; 2] 0) = 1.
Proof.
  split.
  - intros [|[|[|k]]] H; try lia; right; [exists 0%nat|exists 0%nat|exists 1%nat]; cbn; (split; [lia|]); (split; [lra|]); field.
  - unfold simpson, basic_simpson, simpson_triple. cbn. field.
Qed.
(** The settings with one redshift. *)
Example C109_single_redshift_case : exists b c, has_table b (p_in c) "1" [1 / 2] pe_x [[4; 5; 6]] /\
  (forall zd mk, exists b', pred_execute zd mk c b = (b', Ok tt)).
Proof.
  set (t := {| t_z := [1 / 2]; t_obs := pe_x; t_tot := [[4; 5; 6]]; t_cen := []; t_sat := [] |}).
  set (b := bput (bput (save_obs_block false "stellar_mass_function" [t; t] pe_empty) "nz" "z" (BArr [0; 1; 2])) "nz" "bin_1" (BArr [1; 1 / 2; 0])).
  assert (T : has_table b "stellar_mass_function" "1" [1 / 2] pe_x [[4; 5; 6]]).
  { destruct (saved_table "stellar_mass_function" [t; t] pe_empty 0 t ltac:(cbn; lia) eq_refl) as (A & B & C & D & E); [intros r [<-|[]]; reflexivity|].
    unfold b. repeat split; try (rewrite !bput_other by (left; discriminate); assumption); assumption. }
  exists b, (pe_cfg false None None). split; [exact T|]. intros zd mk. apply (table_runs zd mk _ _ "nz"%string); [reflexivity..| | |].
  - intros i Hi. cbn in Hi. assert (i = 1%nat) by lia. subst i. repeat split.
  - intros i Hi. cbn in Hi. assert (i = 0%nat) by lia. subst i. do 3 eexists. exact T.
  - intros i Hi. cbn in Hi. assert (i = 0%nat) by lia. subst i. exists [0; 1; 2], [1; 1 / 2; 0]. repeat split.
Qed.

(** * C110  weighted binning *)
Theorem C110_file : forall zero_div mk c b b' i x y d,
  pred_execute zero_div mk c b = (b', Ok tt) -> p_weighted c = true -> p_cosmo c = None -> p_dist c = Some d ->
  (i < List.length (p_suffixes c))%nat -> has_flat b (p_in c) (nth i (p_suffixes c) ""%string) x y -> rising x ->
  let n := Z.to_nat (nth i (p_n c) 0%Z) in let lo := nth i (p_min c) 0 in let hi := nth i (p_max c) 0 in
  exists v f, written b' (p_out c) (i + 1) v (nth i (p_obs c) []) /\ List.length v = n /\ (forall q, says x y q (f q)) /\
    forall j, (j < n)%nat ->
      (sum_between snd (edge lo hi n j) (edge lo hi n (j + 1)) d <> 0 -> bin_mean f d lo hi n j (nth j v 0)) /\
      (sum_between snd (edge lo hi n j) (edge lo hi n (j + 1)) d = 0 ->
       nth j v 0 = zero_div (sum_between (fun p => f (Rpower 10 (fst p)) * snd p) (edge lo hi n j) (edge lo hi n (j + 1)) d)).
Proof. exact weighted_file. Qed.
Print Assumptions C110_file.

Theorem C110_grid : forall zero_div mk c b b' i x y,
  pred_execute zero_div mk c b = (b', Ok tt) -> p_weighted c = true -> p_cosmo c = None -> p_dist c = None -> p_min c <> [] -> p_max c <> [] ->
  (i < List.length (p_suffixes c))%nat -> has_flat b (p_in c) (nth i (p_suffixes c) ""%string) x y -> rising x ->
  let n := Z.to_nat (nth i (p_n c) 0%Z) in let lo := nth i (p_min c) 0 in let hi := nth i (p_max c) 0 in
  exists v f d least most, written b' (p_out c) (i + 1) v (nth i (p_obs c) []) /\ List.length v = n /\ (forall q, says x y q (f q)) /\
    (In least (p_min c) /\ forall u, In u (p_min c) -> least <= u) /\ (In most (p_max c) /\ forall u, In u (p_max c) -> u <= most) /\
    Z.of_nat (List.length d) = 10000%Z /\
    (forall k, (k < List.length d)%nat -> nth k d (0, 0) = (least + INR k * ((most - least) / 9999), 1)) /\
    forall j, (j < n)%nat ->
      sum_between snd (edge lo hi n j) (edge lo hi n (j + 1)) d <> 0 -> bin_mean f d lo hi n j (nth j v 0).
Proof. exact weighted_grid. Qed.
Print Assumptions C110_grid.

(** A mean stays between the values it is taken over, and together the bins conserve the sum. *)
Theorem C110_bounds : forall f d a b n j v lo hi, bin_mean f d a b n j v ->
  (forall p, In p d -> 0 <= snd p) -> 0 < sum_between snd (edge a b n j) (edge a b n (j + 1)) d ->
  (forall p, In p d -> edge a b n j < fst p <= edge a b n (j + 1) -> lo <= f (Rpower 10 (fst p)) <= hi) -> lo <= v <= hi.
Proof. exact mean_bounds. Qed.
Print Assumptions C110_bounds.
Theorem C110_conserved : forall f d a b n (v : nat -> R), a <= b -> (0 < n)%nat -> (forall j, (j < n)%nat -> bin_mean f d a b n j (v j)) ->
  sumR n (fun j => v j * sum_between snd (edge a b n j) (edge a b n (j + 1)) d) = sum_between (fun p => f (Rpower 10 (fst p)) * snd p) a b d.
Proof. exact means_conserve. Qed.
Print Assumptions C110_conserved.

(** Only the first redshift of a table enters: the later ones are replaced by the integral of the
    redshift distribution. *)
Theorem C110_redshift_refuted : forall zero_div mk c b b' i z x t sample zn nn,
  pred_execute zero_div mk c b = (b', Ok tt) -> p_weighted c = true -> p_cosmo c = None ->
  (i < List.length (p_suffixes c))%nat -> has_table b (p_in c) (nth i (p_suffixes c) ""%string) z x t ->
  p_sample c = Some sample -> has_nz b sample (i + 1) zn nn -> rising x -> rising zn -> (1 <= List.length z)%nat ->
  forall d, p_dist c = Some d ->
  let n := Z.to_nat (nth i (p_n c) 0%Z) in let lo := nth i (p_min c) 0 in let hi := nth i (p_max c) 0 in
  exists v w f m, written b' (p_out c) (i + 1) v (nth i (p_obs c) []) /\ List.length v = n /\
    (forall k, (k < List.length z)%nat -> says zn nn (nth k z 0) (w k)) /\
    (forall q, says x (nth 0 t []) q (f q)) /\
    forall j, (j < n)%nat ->
      (sum_between snd (edge lo hi n j) (edge lo hi n (j + 1)) d <> 0 -> bin_mean f d lo hi n j (m j)) /\
      nth j v 0 = m j * simpson (List.length z) w (fun k => nth k z 0).
Proof.
  intros zd mk c b b' i z x t sample zn nn H W C Hi F S N Rx Rz L1 d D n lo hi.
  destruct (weighted_table _ _ _ _ _ _ _ _ _ _ _ _ H W C Hi F S N Rx Rz L1) as (v & w & f & m & A & B & E & G & V).
  exists v, w, f, m. repeat (split; [assumption|]). unfold points_of in V. rewrite D in V. exact V.
Qed.
Print Assumptions C110_redshift_refuted.

(** A galaxy on the lowest edge is in no bin. *)
Theorem C110_lowest_edge_refuted : forall g a b n j w d, a <= b -> (0 < n)%nat ->
  sum_between g (edge a b n j) (edge a b n (j + 1)) ((a, w) :: d) = sum_between g (edge a b n j) (edge a b n (j + 1)) d.
Proof. exact lower_edge. Qed.
Print Assumptions C110_lowest_edge_refuted.

Example C110_case : forall zero_div mk,
  (exists b', pred_execute zero_div mk (pe_cfg true (Some pe_dist) None) pe_flat = (b', Ok tt)) /\
  (exists b', pred_execute zero_div mk (pe_cfg true (Some pe_dist) None) pe_block = (b', Ok tt)) /\
  sum_between snd (edge 0 2 2 0) (edge 0 2 2 1) pe_dist = 4.
Proof.
  intros zd mk. split; [apply pe_weighted_runs|]. split; [apply pe_weighted_table_runs|].
  unfold sum_between, edge, pe_dist. cbn [fold_right fst snd]. simpl (INR 0). simpl (INR 1). simpl (INR 2).
  repeat match goal with |- context [Rlt_dec ?a ?b] => destruct (Rlt_dec a b); try lra end;
  repeat match goal with |- context [Rle_dec ?a ?b] => destruct (Rle_dec a b); try lra end.
Qed.

(** * C111  the correction for the cosmology of the data *)
Theorem C111_ratio : forall zero_div mk c b b' data, pred_execute zero_div mk c b = (b', Ok tt) -> p_cosmo c = Some data ->
  exists args b0, run_arguments b = Ok args /\ pred_execute zero_div mk (uncorrected c) b = (b0, Ok tt) /\
  List.length (p_zmin c) = List.length (p_suffixes c) /\ List.length (p_zmax c) = List.length (p_suffixes c) /\
  forall i, (i < List.length (p_suffixes c))%nat ->
    let z1 := nth i (p_zmin c) 0 in let z2 := nth i (p_zmax c) 0 in
    let vol m := (c_dist m z2 ^ 3 - c_dist m z1 ^ 3) * c_h m ^ 3 in
    vol data <> 0 ->
    exists v, written b0 (p_out c) (i + 1) v (nth i (p_obs c) []) /\
              written b' (p_out c) (i + 1) (map (fun x => x * (vol (mk args) / vol data)) v) (nth i (p_obs c) []).
Proof. exact corrected. Qed.
Print Assumptions C111_ratio.

(** In the cosmology of the data nothing is changed. *)
Theorem C111_same : forall zero_div c b b' data, pred_execute zero_div (fun _ => data) c b = (b', Ok tt) -> p_cosmo c = Some data ->
  exists b0, pred_execute zero_div (fun _ => data) (uncorrected c) b = (b0, Ok tt) /\
  forall i, (i < List.length (p_suffixes c))%nat ->
    (c_dist data (nth i (p_zmax c) 0) ^ 3 - c_dist data (nth i (p_zmin c) 0) ^ 3) * c_h data ^ 3 <> 0 ->
    exists v, written b0 (p_out c) (i + 1) v (nth i (p_obs c) []) /\ written b' (p_out c) (i + 1) v (nth i (p_obs c) []).
Proof.
  intros zd c b b' data H C. destruct (corrected _ _ _ _ _ _ H C) as (args & b0 & _ & E & _ & _ & V). exists b0. split; [exact E|].
  intros i Hi N. destruct (V i Hi N) as (v & A & B). exists v. split; [exact A|]. rewrite (map_ext _ (fun x => x)) in B; [now rewrite map_id in B|].
  intro x. unfold Rdiv. rewrite Rinv_r by exact N. ring.
Qed.
Print Assumptions C111_same.

(** The limits in redshift are only compared with the bins when the module runs. *)
Theorem C111_limits : forall zero_div mk c b data, p_cosmo c = Some data ->
  List.length (p_zmin c) <> List.length (p_suffixes c) \/ List.length (p_zmax c) <> List.length (p_suffixes c) ->
  pred_execute zero_div mk c b = (b, Err "ValueError").
Proof.
  intros zd mk c b data C D. unfold pred_execute, run_cosmo. rewrite C.
  destruct (Nat.eqb_spec (List.length (p_zmin c)) (List.length (p_suffixes c))); destruct (Nat.eqb_spec (List.length (p_zmax c)) (List.length (p_suffixes c)));
    try reflexivity. destruct D; contradiction.
Qed.
Print Assumptions C111_limits.

Example C111_case : forall zero_div,
  (exists b', pred_execute zero_div (fun _ => pe_cosmo 2 (7 / 10)) (pe_cfg false None (Some (pe_cosmo 1 1))) (pe_params pe_flat) = (b', Ok tt)) /\
  let data := pe_cosmo 1 1 in (c_dist data 2 ^ 3 - c_dist data 1 ^ 3) * c_h data ^ 3 = 7.
Proof. intro zd. split; [apply pe_corrected_runs|]. cbn. ring. Qed.

(** * C112  from the pipeline to the prediction *)
Theorem C112_tables : forall sec l b k t0, (k < List.length l)%nat -> let t := nth k l t0 in
  List.length (t_tot t) = List.length (t_z t) -> (forall r, In r (t_tot t) -> List.length r = List.length (t_obs t)) ->
  has_table (save_obs_block false sec l b) sec (dec (k + 1)) (t_z t) (t_obs t) (t_tot t).
Proof. exact saved_table. Qed.
Print Assumptions C112_tables.

Theorem C112_flat : forall sec l b k t0, (k < List.length l)%nat -> let t := nth k l t0 in
  List.length (nth 0 (t_tot t) []) = List.length (t_obs t) -> b sec ("z_bin_" ++ dec (k + 1))%string = None ->
  has_flat (save_obs_block true sec l b) sec (dec (k + 1)) (t_obs t) (nth 0 (t_tot t) []).
Proof. exact saved_flat. Qed.
Print Assumptions C112_flat.

(** Without the option suffixes the names do not meet. *)
Theorem C112_default_refuted : forall flat sec l b zero_div mk c missing wrong o n_obs loadtxt data,
  pred_setup missing wrong o None n_obs loadtxt data = Ok c -> p_in c = sec -> p_cosmo c = None ->
  b sec "obs_val__1"%string = None ->
  pred_execute zero_div mk c (save_obs_block flat sec l b) = (save_obs_block flat sec l b, Err "BlockNameNotFound").
Proof.
  intros flat sec l b zd mk c missing wrong o n_obs loadtxt data H I C N. apply default_missing; try assumption.
  destruct (setup_parts _ _ _ _ _ _ _ _ H) as (A & _). exact A.
Qed.
Print Assumptions C112_default_refuted.

Example C112_case : has_table (save_obs_block false "stellar_mass_function" [pe_t; pe_t] pe_empty) "stellar_mass_function" "2" [0; 1; 2] pe_x [[4; 5; 6]; [4; 5; 6]; [7; 8; 9]] /\
  exists c, pred_setup "m" "w" (fun n => match C108_options n with Some (OArr (x :: _)) => Some (ODbl x) | v => v end) None (Ok [3%Z]) (fun _ => Err "e") (Err "e") = Ok c /\
    p_in c = "stellar_mass_function"%string /\ p_cosmo c = None.
Proof.
  split.
  - apply (saved_table "stellar_mass_function" [pe_t; pe_t] pe_empty 1 pe_t); [cbn; lia|reflexivity|]. intros r [<-|[<-|[<-|[]]]]; reflexivity.
  - eexists. split; [reflexivity|]. split; reflexivity.
Qed.
