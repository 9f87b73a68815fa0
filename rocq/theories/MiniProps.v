(** Properties of mini_2pt_like.py and correlated_priors.py: C113-C118.  Vocabulary: MiniSpec. *)
From Coq Require Import ZArith Ascii Permutation.
From Verif Require Import Base Spec FftModel RsModel OgataModel PipeModel OptModel TpModel TpSpec ChainModel ChainSpec PredModel PredSpec MiniModel MiniSpec
  MiniFacts MiniFacts2 MiniFacts3 MiniFacts4 MiniFacts5 MiniFacts6 MiniFacts7 MiniFacts8 TpExample TpFacts6 ChainFacts ChainExample ChainFacts7 PredFacts5 ChainFacts2 ChainFacts3 ChainFacts4 ChainFacts5 ChainFacts6 RsExample OgataFacts.
From Coq Require Import List.
Open Scope R_scope.

(** One bin of wp at two separations. *)
Definition me_block : dblock := fun s n =>
  if String.eqb s "wp" then
    if String.eqb n "nbin" then Some (BInt 1) else if String.eqb n "rp" then Some (BArr [1; 10; 100]) else if String.eqb n "bin_1" then Some (BArr [4; 5; 6]) else None
  else None.
Definition me_cfg (mode : string) (n : nat) : mconfig :=
  {| m_sections := ["wp"%string]; m_inv := unit_mat n; m_x := [[2; 20]]; m_y := [[4; 6]]; m_mode := mode; m_edge := map edges_of [[2; 20]];
     m_like := "gal"%string; m_keep := true; m_unit := "Mpc"%string |}.
Definition me_unit (u : string) : option R := if String.eqb u "Mpc" then Some 1 else if String.eqb u "Gpc" then Some 1000 else None.
Lemma me_scales x y z : 0 < x -> x < y -> y < z -> scales [x; y; z].
Proof. intros. split; [split; [cbn; lia|]|exact H]. intros [|[|i]] Hi; cbn in *; try lra; lia. Qed.
Lemma me_theory s i tx ty : In s ["wp"%string] -> has_theory me_block s i tx ty -> tx = [1; 10; 100].
Proof.
  intros [<-|[]] (_ & _ & [[_ H]|[[_ H]|[_ [_ H]]]]); [now inversion H| |]; cbn in H; discriminate.
Qed.
Lemma me_sane mode n : sane me_unit (me_cfg mode n) me_block.
Proof.
  split; [reflexivity|]. split; [intros x [<-|[]]; split; [split; [cbn; lia|]|cbn; lra]; intros [|i] Hi; cbn in *; try lra; lia|]. split.
  - intros u f. unfold me_unit. destruct (String.eqb u "Mpc"); [intro H; injection H as <-; lra|]. destruct (String.eqb u "Gpc"); [intro H; injection H as <-; lra|discriminate].
  - intros s i tx ty I H. rewrite (me_theory _ _ _ _ I H). apply me_scales; lra.
Qed.
Lemma me_has : has_theory me_block "wp" 1 [1; 10; 100] [4; 5; 6].
Proof. split; [reflexivity|]. split; [reflexivity|]. left. split; [now left|reflexivity]. Qed.
Lemma me_counts : bin_counts me_block ["wp"%string] (fun _ => 1%nat).
Proof. intros s [<-|[]]. reflexivity. Qed.
Lemma me_run n : (2 <= n)%nat -> exists b', mini_execute me_unit (me_cfg "interpolate" n) me_block = (b', Ok tt).
Proof.
  intro N. apply (interpolate_runs me_unit _ me_block (fun _ => 1%nat)); [apply me_sane|reflexivity|exact me_counts|reflexivity|discriminate|exact N|].
  intros k Hk. cbn in Hk. assert (k = 0%nat) by lia. subst k. exists 1, [1; 10; 100], [4; 5; 6]. split; [left; split; [now left|reflexivity]|]. split; [exact me_has|].
  cbn. intros v [<-|[<-|[]]]; lra.
Qed.
Lemma me_run_integrate n : (2 <= n)%nat -> exists b', mini_execute me_unit (me_cfg "integrate" n) me_block = (b', Ok tt).
Proof.
  intro N. apply (integrate_runs me_unit _ me_block (fun _ => 1%nat)); [apply me_sane|reflexivity|reflexivity|exact me_counts|reflexivity|discriminate|exact N|].
  intros k Hk. cbn in Hk. assert (k = 0%nat) by lia. subst k. exists 1, [1; 10; 100], [4; 5; 6]. split; [left; split; [now left|reflexivity]|exact me_has].
Qed.

(** * C113  the likelihood *)
Theorem C113_likelihood : forall to_mpc c b b', mini_execute to_mpc c b = (b', Ok tt) -> sane to_mpc c b -> m_mode c = "interpolate"%string ->
  (List.length (List.concat (m_y c)) <= m_n (m_inv c))%nat /\
  exists nb ts, bin_counts b (m_sections c) nb /\ predicted to_mpc c b nb on_chords ts /\ scored b b' c (List.concat ts).
Proof.
  intros to_mpc c b b' H S M. destruct (execute_inv _ _ _ _ H) as (ts & _ & _ & T & _). destruct (interpolate_theory _ _ _ _ S M T) as (nb & C & P).
  destruct (scored_of _ _ _ _ _ S H T) as [Q N]; [apply (shape_of to_mpc c b nb on_chords); [now intros x tx ty f t [L _]|exact P]|]. split; [exact N|]. now exists nb, ts.
Qed.
Print Assumptions C113_likelihood.
Theorem C113_likelihood_bins : forall to_mpc c b b', mini_execute to_mpc c b = (b', Ok tt) -> sane to_mpc c b -> m_mode c = "integrate"%string -> m_edge c = map edges_of (m_x c) ->
  (List.length (List.concat (m_y c)) <= m_n (m_inv c))%nat /\
  exists nb ts, bin_counts b (m_sections c) nb /\ predicted to_mpc c b nb in_bins ts /\ scored b b' c (List.concat ts).
Proof.
  intros to_mpc c b b' H S M E. destruct (execute_inv _ _ _ _ H) as (ts & _ & _ & T & _). destruct (integrate_theory _ _ _ _ S M E T) as (nb & C & P).
  destruct (scored_of _ _ _ _ _ S H T) as [Q N]; [apply (shape_of to_mpc c b nb in_bins); [now intros x tx ty f t [L _]|exact P]|]. split; [exact N|]. now exists nb, ts.
Qed.
Print Assumptions C113_likelihood_bins.
(** With the inverse of a positive definite covariance of the size of the data the
    log-likelihood is at most 0, and 0 exactly where theory and data agree. *)
Theorem C113_maximum : forall b b' c t cov, scored b b' c t -> inverse_of cov (m_inv c) -> pos_def cov -> List.length (List.concat (m_y c)) = m_n cov ->
  exists l, b' "likelihoods"%string (m_like c ++ "_LIKE")%string = Some (BDbl l) /\ l <= 0 /\ (l = 0 <-> t = List.concat (m_y c)).
Proof.
  intros b b' c t cov (L & _ & K & _) I P N. eexists. split; [exact K|]. destruct (form_pos cov (m_inv c) (List.concat (m_y c)) t I P (eq_sym L) N) as [A B].
  cbv zeta in A, B. set (x := form _ _ _) in *. split; [lra|]. split; intro Q; [symmetry; apply B; lra|]. assert (x = 0) by (apply B; now symmetry). lra.
Qed.
Print Assumptions C113_maximum.
(** A covariance smaller than the data is refused; of a larger one only the first rows and
    columns of its inverse enter, whatever the rest. *)
Theorem C113_small_covariance : forall to_mpc c b ts nb (P : list R -> list R -> list R -> R -> list R -> Prop), (forall x tx ty f t, P x tx ty f t -> List.length t = List.length x) ->
  theory_bins to_mpc c b = Ok ts -> predicted to_mpc c b nb P ts -> map (@List.length R) (m_x c) = map (@List.length R) (m_y c) ->
  (m_n (m_inv c) < List.length (List.concat (m_y c)))%nat -> mini_execute to_mpc c b = (b, Err "ValueError").
Proof.
  intros to_mpc c b ts nb P HP T PP L N. apply (execute_small _ _ _ ts T); [|exact N]. rewrite <- L. now apply (shape_of to_mpc c b nb P).
Qed.
Print Assumptions C113_small_covariance.
Theorem C113_size_refuted : forall to_mpc c b b' inv, mini_execute to_mpc c b = (b', Ok tt) -> sane to_mpc c b -> m_mode c = "interpolate"%string ->
  (List.length (List.concat (m_y c)) <= m_n inv)%nat ->
  (forall i j, (i < List.length (List.concat (m_y c)))%nat -> (j < List.length (List.concat (m_y c)))%nat -> m_at inv i j = m_at (m_inv c) i j) ->
  mini_execute to_mpc {| m_sections := m_sections c; m_inv := inv; m_x := m_x c; m_y := m_y c; m_mode := m_mode c; m_edge := m_edge c;
     m_like := m_like c; m_keep := m_keep c; m_unit := m_unit c |} b = (b', Ok tt).
Proof.
  intros to_mpc c b b' inv H S M N E. destruct (execute_inv _ _ _ _ H) as (ts & _ & _ & T & _). destruct (interpolate_theory _ _ _ _ S M T) as (nb & _ & P).
  apply (oversize _ _ _ _ ts); try assumption. rewrite <- (proj1 S). apply (shape_of to_mpc c b nb on_chords); [now intros x tx ty f t [L _]|exact P].
Qed.
Print Assumptions C113_size_refuted.
(** A failing call changes nothing. *)
Theorem C113_failure : forall to_mpc c b b' e, mini_execute to_mpc c b = (b', Err e) -> m_x c <> [] -> b' = b.
Proof. exact fails_unchanged. Qed.
Print Assumptions C113_failure.
Example C113_case : sane me_unit (me_cfg "interpolate" 2) me_block /\ (exists b', mini_execute me_unit (me_cfg "interpolate" 2) me_block = (b', Ok tt)) /\
  inverse_of (unit_mat 2) (m_inv (me_cfg "interpolate" 2)) /\ (exists b', mini_execute me_unit (me_cfg "integrate" 2) me_block = (b', Ok tt)).
Proof.
  split; [apply me_sane|]. split; [now apply me_run|]. split; [|now apply me_run_integrate]. split; [reflexivity|]. intros [|[|i]] [|[|j]] Hi Hj; cbn in *; try lia; unfold unit_mat; cbn; lra.
Qed.
Example C113_size_case : (List.length (List.concat (m_y (me_cfg "interpolate" 2))) <= m_n (unit_mat 5))%nat.
Proof. cbn. lia. Qed.

(** * C114  which data go with which theory *)
(** The files in the order of their names, the bins in the order of the sections. *)
Theorem C114_order : forall missing wrong o glob column cols loadtxt inv c, mini_setup missing wrong o glob column cols loadtxt inv = Ok c ->
  exists secs data cs names, get_string missing wrong o "input_section_names" None = Ok secs /\ get_string missing wrong o "data" None = Ok data /\ cols = Ok cs /\
    m_sections c = words secs /\ Permutation names (glob data) /\ in_name_order names /\
    List.length (m_x c) = List.length names /\ List.length (m_y c) = List.length names /\
    forall k, (k < List.length names)%nat -> exists c0 c1, nth_error cs 0 = Some c0 /\ nth_error cs 1 = Some c1 /\
      column (nth k names ""%string) c0 = Ok (nth k (m_x c) []) /\ column (nth k names ""%string) c1 = Ok (nth k (m_y c) []).
Proof.
  intros missing wrong o glob column cols loadtxt inv c H. destruct (setup_inv _ _ _ _ _ _ _ _ _ H) as (secs & data & cov & m & i & cs & A & B & _ & D & E & _ & _ & _ & F & _).
  destruct (points_ok _ _ _ _ _ E) as (names & P & O & _ & L1 & L2 & V). cbn [fst snd] in *. exists secs, data, cs, names. repeat (split; [assumption|]). exact V.
Qed.
Print Assumptions C114_order.
(** The other settings. *)
Theorem C114_settings : forall missing wrong o glob column cols loadtxt inv c, mini_setup missing wrong o glob column cols loadtxt inv = Ok c ->
  (exists cov m, get_string missing wrong o "covariance" None = Ok cov /\ loadtxt cov = Ok m /\ inv m = Some (m_inv c)) /\
  get_string missing wrong o "unit" None = Ok (m_unit c) /\ get_string missing wrong o "binning_mode" (Some "interpolate"%string) = Ok (m_mode c) /\
  get_string missing wrong o "like_name" None = Ok (m_like c) /\ get_bool missing wrong o "keep_theory_vector" (Some false) = Ok (m_keep c) /\
  (m_mode c = "integrate"%string -> m_edge c = map edges_of (m_x c)).
Proof.
  intros missing wrong o glob column cols loadtxt inv c H. destruct (setup_inv _ _ _ _ _ _ _ _ _ H) as (secs & data & cov & m & i & cs & A & B & C & D & E & F & G & I & J & K & L & M & N & O).
  split; [exists cov, m; rewrite I; now repeat split|]. now repeat split.
Qed.
Print Assumptions C114_settings.
(** As many files as theory bins, or nothing is computed. *)
Theorem C114_count : forall to_mpc c b nb, bin_counts b (m_sections c) nb -> List.length (bin_list nb (m_sections c)) <> List.length (m_x c) ->
  mini_execute to_mpc c b = (b, Err "ValueError").
Proof. exact wrong_count. Qed.
Print Assumptions C114_count.
Theorem C114_runs : forall to_mpc c b nb, sane to_mpc c b -> m_mode c = "interpolate"%string -> bin_counts b (m_sections c) nb ->
  List.length (bin_list nb (m_sections c)) = List.length (m_x c) -> m_x c <> [] -> (List.length (List.concat (m_y c)) <= m_n (m_inv c))%nat ->
  (forall k, (k < List.length (m_x c))%nat -> let p := nth k (bin_list nb (m_sections c)) (""%string, 0%nat) in
     exists f tx ty, unit_factor to_mpc (m_unit c) (fst p) f /\ has_theory b (fst p) (snd p) tx ty /\
       forall v, In v (nth k (m_x c) []) -> nth 0 tx 0 <= v * f <= nth (List.length tx - 1) tx 0) ->
  exists b', mini_execute to_mpc c b = (b', Ok tt).
Proof. exact interpolate_runs. Qed.
Print Assumptions C114_runs.
Theorem C114_runs_bins : forall to_mpc c b nb, sane to_mpc c b -> m_mode c = "integrate"%string -> m_edge c = map edges_of (m_x c) -> bin_counts b (m_sections c) nb ->
  List.length (bin_list nb (m_sections c)) = List.length (m_x c) -> m_x c <> [] -> (List.length (List.concat (m_y c)) <= m_n (m_inv c))%nat ->
  (forall k, (k < List.length (m_x c))%nat -> let p := nth k (bin_list nb (m_sections c)) (""%string, 0%nat) in
     exists f tx ty, unit_factor to_mpc (m_unit c) (fst p) f /\ has_theory b (fst p) (snd p) tx ty) ->
  exists b', mini_execute to_mpc c b = (b', Ok tt).
Proof. exact integrate_runs. Qed.
Print Assumptions C114_runs_bins.
(** Names are not numbers: file 10 stands before file 2, so it is compared with the second bin. *)
Theorem C114_ten_files_refuted : forall names, Permutation names ["b_1"; "b_2"; "b_3"; "b_4"; "b_5"; "b_6"; "b_7"; "b_8"; "b_9"; "b_10"]%string -> in_name_order names ->
  nth 1 names ""%string = "b_10"%string.
Proof.
  intros names P O. assert (E : names = ["b_1"; "b_10"; "b_2"; "b_3"; "b_4"; "b_5"; "b_6"; "b_7"; "b_8"; "b_9"]%string); [|now subst].
  assert (U : forall l l', Permutation l l' -> in_name_order l -> in_name_order l' -> l = l').
  { induction l as [|x l IH]; intros l' Q A B; [now apply Permutation_nil in Q|]. destruct l' as [|y l']; [symmetry in Q; now apply Permutation_nil in Q|].
    destruct (order_tail _ _ A) as [A1 A2]. destruct (order_tail _ _ B) as [B1 B2]. assert (x = y).
    { assert (Ix : In x (y :: l')) by (apply (Permutation_in _ Q); now left). assert (Iy : In y (x :: l)) by (apply (Permutation_in _ (Permutation_sym Q)); now left).
      destruct Ix as [E|Ix]; [now symmetry|]. destruct Iy as [E|Iy]; [exact E|]. apply String.leb_antisym; [now apply A2|now apply B2]. }
    subst y. f_equal. apply IH; [now apply Permutation_cons_inv in Q|exact A1|exact B1]. }
  destruct (sorted_spec ["b_1"; "b_2"; "b_3"; "b_4"; "b_5"; "b_6"; "b_7"; "b_8"; "b_9"; "b_10"]%string) as [P' O'].
  apply (U _ _ (Permutation_trans P (Permutation_sym P')) O O').
Qed.
Print Assumptions C114_ten_files_refuted.
(** The third column, the calibration, and the pseudo-inverse are never reached. *)
Theorem C114_third_column_refuted : forall missing wrong o glob column cols loadtxt inv data cs secs cov unit,
  get_string missing wrong o "input_section_names" None = Ok secs -> get_string missing wrong o "data" None = Ok data ->
  get_string missing wrong o "covariance" None = Ok cov -> cols = Ok cs -> get_string missing wrong o "unit" None = Ok unit ->
  List.length cs = 3%nat -> (forall f k, In f (glob data) -> (k < 2)%nat -> exists v, column f (nth k cs 0%Z) = Ok v) ->
  mini_setup missing wrong o glob column cols loadtxt inv = Err "NameError".
Proof. exact three_columns. Qed.
Print Assumptions C114_third_column_refuted.
Theorem C114_pseudo_inverse_refuted : forall missing wrong o glob column cols loadtxt inv data cs secs cov unit xy m,
  get_string missing wrong o "input_section_names" None = Ok secs -> get_string missing wrong o "data" None = Ok data ->
  get_string missing wrong o "covariance" None = Ok cov -> cols = Ok cs -> get_string missing wrong o "unit" None = Ok unit ->
  load_points glob column data cs = Ok xy -> loadtxt cov = Ok m -> inv m = None ->
  mini_setup missing wrong o glob column cols loadtxt inv = Err "NameError".
Proof. exact singular. Qed.
Print Assumptions C114_pseudo_inverse_refuted.
Definition C114_options : options := fun n =>
  if String.eqb n "input_section_names" then Some (OStr "wp ds") else if String.eqb n "data" then Some (OStr "d") else if String.eqb n "covariance" then Some (OStr "c")
  else if String.eqb n "unit" then Some (OStr "Mpc") else if String.eqb n "like_name" then Some (OStr "gal") else None.
Example C114_case : exists c, mini_setup "m" "w" C114_options (fun _ => ["b_2"; "b_1"]%string) (fun f _ => Ok (if String.eqb f "b_1" then [1; 2] else [3; 4])) (Ok [0%Z; 1%Z])
    (fun _ => Ok (unit_mat 4)) (fun m => Some m) = Ok c /\ m_x c = [[1; 2]; [3; 4]] /\ m_sections c = ["wp"; "ds"]%string.
Proof. eexists. split; [reflexivity|]. now split. Qed.
Example C114_refuted_cases :
  mini_setup "m" "w" C114_options (fun _ => ["b_2"; "b_1"]%string) (fun f _ => Ok [1; 2]) (Ok [0%Z; 1%Z; 2%Z]) (fun _ => Ok (unit_mat 4)) (fun m => Some m) = Err "NameError" /\
  mini_setup "m" "w" C114_options (fun _ => ["b_2"; "b_1"]%string) (fun f _ => Ok [1; 2]) (Ok [0%Z; 1%Z]) (fun _ => Ok (unit_mat 4)) (fun m => None) = Err "NameError".
Proof. split; reflexivity. Qed.
Example C114_count_case : bin_counts me_block ["wp"; "wp"]%string (fun _ => 1%nat) /\ List.length (bin_list (fun _ => 1%nat) ["wp"; "wp"]%string) = 2%nat.
Proof. split; [|reflexivity]. intros s [<-|[<-|[]]]; reflexivity. Qed.

(** * C115  interpolated theory *)
(** One value per point; exact for a function that is linear in ln x, and at the nodes; between
    neighbouring nodes otherwise. *)
Theorem C115_unique : forall x y q v v', scales x -> 0 < q -> log_chord x y q v -> log_chord x y q v' -> v = v'.
Proof. intros x y q v v' S Q A B. apply (strict_chord x y q v S Q) in A. apply (strict_chord x y q v' S Q) in B. congruence. Qed.
Print Assumptions C115_unique.
Theorem C115_log_linear : forall x y q v a b, scales x -> (forall i, (i < List.length x)%nat -> nth i y 0 = a * ln (nth i x 0) + b) -> log_chord x y q v -> v = a * ln q + b.
Proof. exact chord_affine. Qed.
Print Assumptions C115_log_linear.
Theorem C115_nodes : forall x y i v, scales x -> (i < List.length x)%nat -> log_chord x y (nth i x 0) v -> v = nth i y 0.
Proof. exact chord_node. Qed.
Print Assumptions C115_nodes.
Theorem C115_bounds : forall x y q v, log_chord x y q v -> scales x ->
  exists j, (S j < List.length x)%nat /\ Rmin (nth j y 0) (nth (S j) y 0) <= v <= Rmax (nth j y 0) (nth (S j) y 0).
Proof. exact chord_bounds. Qed.
Print Assumptions C115_bounds.
(** A data point the theory does not cover stops the run, with nothing written. *)
Theorem C115_not_covered : forall to_mpc c b nb k, sane to_mpc c b -> m_mode c = "interpolate"%string -> bin_counts b (m_sections c) nb ->
  List.length (bin_list nb (m_sections c)) = List.length (m_x c) -> (k < List.length (m_x c))%nat ->
  (let p := nth k (bin_list nb (m_sections c)) (""%string, 0%nat) in
     exists f tx ty v, unit_factor to_mpc (m_unit c) (fst p) f /\ has_theory b (fst p) (snd p) tx ty /\
       In v (nth k (m_x c) []) /\ (v * f < nth 0 tx 0 \/ nth (List.length tx - 1) tx 0 < v * f)) ->
  exists e, mini_execute to_mpc c b = (b, Err e).
Proof. exact not_covered. Qed.
Print Assumptions C115_not_covered.
(** The unit the separations are given in does not matter. *)
Theorem C115_units : forall to_mpc c c' b f f' g, m_mode c = "interpolate"%string -> m_mode c' = "interpolate"%string -> m_sections c = m_sections c' -> m_inv c = m_inv c' -> m_y c = m_y c' ->
  m_like c = m_like c' -> m_keep c = m_keep c' -> (forall s, In s (m_sections c) -> of_separation s) ->
  to_mpc (m_unit c) = Some f -> to_mpc (m_unit c') = Some f' -> g * f' = f -> m_x c' = map (map (fun v => v * g)) (m_x c) ->
  mini_execute to_mpc c b = mini_execute to_mpc c' b.
Proof. exact units. Qed.
Print Assumptions C115_units.
Example C115_case : scales [1; 10; 100] /\ log_chord [1; 10; 100] [4; 5; 6] (sqrt 10) (9 / 2) /\ me_unit "Mpc" = Some 1 /\ me_unit "Gpc" = Some 1000 /\ 1 / 1000 * 1000 = 1.
Proof.
  split; [apply me_scales; lra|]. split; [|repeat split; lra]. exists 0%nat. split; [cbn; lia|]. split.
  - assert (S : sqrt 10 * sqrt 10 = 10) by (apply sqrt_sqrt; lra). assert (0 <= sqrt 10) by apply sqrt_pos. cbn. split; nra.
  - cbn. rewrite ln_1. assert (L : 0 < ln 10) by (rewrite <- ln_1; apply ln_increasing; lra). rewrite <- (Rpower_sqrt 10) by lra. unfold Rpower. rewrite ln_exp. field. lra.
Qed.
Example C115_not_covered_case : unit_factor me_unit "Gpc" "wp" 1000 /\ nth 2 [1; 10; 100] 0 < 2 * 1000.
Proof. split; [left; split; [now left|reflexivity]|cbn; lra]. Qed.

(** * C116  integrated theory *)
(** The edges: each point lies strictly inside its own bin, and neighbours share an edge. *)
Theorem C116_edges : forall x j, scales x -> (j < List.length x)%nat ->
  List.length (edges_of x) = (List.length x + 1)%nat /\ nth j (edges_of x) 0 < nth j x 0 < nth (j + 1) (edges_of x) 0 /\
  ((1 <= j)%nat -> nth j (edges_of x) 0 = sqrt (nth (j - 1) x 0 * nth j x 0)) /\
  (j = 0%nat -> nth j (edges_of x) 0 * nth (j + 1) (edges_of x) 0 = nth j x 0 ^ 2) /\
  ((j + 1)%nat = List.length x -> nth j (edges_of x) 0 * nth (j + 1) (edges_of x) 0 = nth j x 0 ^ 2).
Proof.
  intros x j S Hj. pose proof (proj1 (proj1 S)) as N. rewrite (edges_at x S). rewrite map_length, seq_length.
  assert (G : forall k, (k <= List.length x)%nat -> nth k (map (edge_at x) (seq 0 (List.length x + 1))) 0 = edge_at x k).
  { intros k Hk. rewrite (nth_indep _ 0 (edge_at x 0)) by (rewrite map_length, seq_length; lia). rewrite map_nth. now rewrite seq_nth by lia. }
  rewrite !G by lia. split; [reflexivity|]. split; [now apply edges_around|].
  assert (P : forall i, (i < List.length x)%nat -> 0 < nth i x 0) by (intros; now apply scales_pos).
  assert (Q : forall u v, 0 < u -> 0 < v -> u * sqrt (u / v) * sqrt (u * v) = u ^ 2).
  { intros u v U V. rewrite Rmult_assoc, <- sqrt_mult by (try (apply Rmult_le_pos; lra); left; apply Rdiv_lt_0_compat; assumption).
    replace (u / v * (u * v)) with (u * u) by (field; lra). rewrite sqrt_square by lra. ring. }
  unfold edge_at. repeat split.
  - intro J. destruct (Nat.eqb_spec j 0); [lia|]. destruct (Nat.eqb_spec j (List.length x)); [lia|reflexivity].
  - intros ->. change (0 + 1)%nat with 1%nat. destruct (Nat.eqb_spec 0 0); [|lia]. destruct (Nat.eqb_spec 1 0); [lia|]. destruct (Nat.eqb_spec 1 (List.length x)); [lia|]. cbn [Nat.sub]. apply Q; apply P; lia.
  - intro J. destruct (Nat.eqb_spec j 0); [lia|]. destruct (Nat.eqb_spec j (List.length x)); [lia|]. destruct (Nat.eqb_spec (j + 1) 0); [lia|]. rewrite <- J, Nat.eqb_refl.
    replace (j + 1 - 1)%nat with j by lia. replace (j + 1 - 2)%nat with (j - 1)%nat by lia. rewrite Rmult_comm, (Rmult_comm (nth (j - 1) x 0)). apply Q; apply P; lia.
Qed.
Print Assumptions C116_edges.
(** The value of a bin is an integral, not a mean: a constant theory gives the constant times the
    distance between the first and the last theory node of the bin. *)
Theorem C116_constant_refuted : forall x tx ty f t v, in_bins x tx ty f t -> (forall k, (k < List.length tx)%nat -> nth k ty 0 = v) ->
  forall j i n, (j < List.length x)%nat -> nodes_in tx (edge_at x j) (edge_at x (j + 1)) i n -> nth j t 0 = v * (nth (i + n) tx 0 - nth i tx 0).
Proof. intros x tx ty f t v [_ B] C j i n Hj N. rewrite (proj1 (B j Hj) i n N). apply trapezoids_const. intros k Hk. apply C. destruct N. lia. Qed.
Print Assumptions C116_constant_refuted.
(** Edges are not converted: any unit of length gives the same likelihood. *)
Theorem C116_units_refuted : forall to_mpc c b u' f f', m_mode c = "integrate"%string -> to_mpc (m_unit c) = Some f -> to_mpc u' = Some f' ->
  mini_execute to_mpc c b = mini_execute to_mpc {| m_sections := m_sections c; m_inv := m_inv c; m_x := m_x c; m_y := m_y c; m_mode := m_mode c; m_edge := m_edge c;
     m_like := m_like c; m_keep := m_keep c; m_unit := u' |} b.
Proof. exact no_units. Qed.
Print Assumptions C116_units_refuted.
(** A bin with a single theory node, or none, is predicted to be zero, whatever the theory. *)
Theorem C116_single_node_refuted : forall x tx ty f t j, in_bins x tx ty f t -> (j < List.length x)%nat ->
  (forall k k', (k < List.length tx)%nat -> (k' < List.length tx)%nat -> edge_at x j <= nth k tx 0 < edge_at x (j + 1) ->
     edge_at x j <= nth k' tx 0 < edge_at x (j + 1) -> k = k') -> nth j t 0 = 0.
Proof.
  intros x tx ty f t j [_ B] Hj U. destruct (B j Hj) as [B1 B2]. destruct (Classical_Prop.classic (exists k, (k < List.length tx)%nat /\ edge_at x j <= nth k tx 0 < edge_at x (j + 1))) as [[k [Hk E]]|N].
  - rewrite (B1 k 0%nat); [reflexivity|]. split; [lia|]. intros k' Hk'. split; intro H; [rewrite (U k k' Hk Hk' E H); lia|]. now replace k' with k by lia.
  - apply B2. intros k Hk E. apply N. now exists k.
Qed.
Print Assumptions C116_single_node_refuted.
Example C116_case : scales [2; 20; 200] /\ nodes_in [1; 10; 100; 150] 5 120 1 1 /\ trapezoids [1; 10; 100; 150] [7; 7; 7; 7] 1 1 = 630.
Proof.
  split; [apply me_scales; lra|]. split.
  - split; [cbn; lia|]. intros [|[|[|[|k]]]] Hk; cbn in *; try lia; split; intro H; try lra; try lia.
  - unfold trapezoids. cbn. lra.
Qed.

(** * C117  correlated priors *)
(** Every output is its row of the matrix times all inputs, read before anything is written. *)
Theorem C117_product : forall r b ins outs z, r_in r = pairs_of ins -> r_out r = pairs_of outs -> has_numbers b ins z -> m_n (r_l r) = List.length z ->
  (List.length outs <= List.length z)%nat -> NoDup outs ->
  exists b', prior_execute r b = (b', Ok tt) /\
    (forall i, (i < List.length outs)%nat -> let p := nth i outs (""%string, ""%string) in
       b' (fst p) (snd p) = Some (BDbl (sumR (List.length z) (fun k => m_at (r_l r) i k * nth k z 0)))) /\
    (forall s n, ~ In (s, n) outs -> b' s n = b s n).
Proof. exact prior_values. Qed.
Print Assumptions C117_product.
(** With the root of a covariance: output i depends on the first i + 1 inputs only; the outputs
    have the chi-square of the inputs; and samples of unit covariance get the covariance asked for. *)
Theorem C117_triangular : forall cov l, root_of cov l -> forall z i, (i < m_n cov)%nat ->
  sumR (m_n cov) (fun k => m_at l i k * z k) = sumR (i + 1) (fun k => m_at l i k * z k).
Proof. exact triangular. Qed.
Print Assumptions C117_triangular.
Theorem C117_chi_square : forall cov l, root_of cov l -> forall i z, inverse_of cov i ->
  form (m_n cov) (m_at i) (fun a => sumR (m_n cov) (fun k => m_at l a k * z k)) = sumR (m_n cov) (fun k => z k * z k).
Proof. exact whitened. Qed.
Print Assumptions C117_chi_square.
Theorem C117_covariance : forall cov l, root_of cov l -> forall m (z : nat -> nat -> R),
  (forall i j, (i < m_n cov)%nat -> (j < m_n cov)%nat -> sumR m (fun s => z s i * z s j) = if Nat.eqb i j then INR m else 0) ->
  forall i j, (i < m_n cov)%nat -> (j < m_n cov)%nat ->
    sumR m (fun s => sumR (m_n cov) (fun k => m_at l i k * z s k) * sumR (m_n cov) (fun k => m_at l j k * z s k)) = INR m * m_at cov i j.
Proof. exact ensemble. Qed.
Print Assumptions C117_covariance.
(** The options list section/name words; without a root setup fails. *)
Theorem C117_options : forall missing wrong o loadtxt chol ins outs f c l,
  (forall sn, In sn ins \/ In sn outs -> plain_name (fst sn) /\ plain_name (snd sn)) ->
  o "uncorrelated_parameters"%string = Some (OStr (listed ins)) -> o "output_parameters"%string = Some (OStr (listed outs)) ->
  o "covariance"%string = Some (OStr f) -> loadtxt f = Ok c ->
  (chol c = Some l -> exists r, prior_setup missing wrong o loadtxt chol = Ok r /\ r_in r = pairs_of ins /\ r_out r = pairs_of outs /\ r_l r = l) /\
  (chol c = None -> prior_setup missing wrong o loadtxt chol = Err "LinAlgError").
Proof. exact prior_set. Qed.
Print Assumptions C117_options.
Theorem C117_options_needed : forall missing wrong o loadtxt chol r, prior_setup missing wrong o loadtxt chol = Ok r ->
  exists i u f c, o "uncorrelated_parameters"%string = Some (OStr i) /\ o "output_parameters"%string = Some (OStr u) /\ o "covariance"%string = Some (OStr f) /\
    loadtxt f = Ok c /\ chol c = Some (r_l r) /\ r_in r = map (split_on "/"%char) (words i) /\ r_out r = map (split_on "/"%char) (words u).
Proof. exact prior_needs. Qed.
Print Assumptions C117_options_needed.
(** A covariance of another size changes nothing; more outputs than inputs fail only after the
    others have been written. *)
Theorem C117_size : forall r b ins z, r_in r = pairs_of ins -> has_numbers b ins z -> m_n (r_l r) <> List.length z -> prior_execute r b = (b, Err "ValueError").
Proof. exact prior_size. Qed.
Print Assumptions C117_size.
Theorem C117_no_partial_write_refuted : forall r b ins outs z, r_in r = pairs_of ins -> r_out r = pairs_of outs -> has_numbers b ins z -> m_n (r_l r) = List.length z ->
  (List.length z < List.length outs)%nat -> NoDup outs ->
  exists b', prior_execute r b = (b', Err "IndexError") /\
    forall i, (i < List.length z)%nat -> let p := nth i outs (""%string, ""%string) in
       b' (fst p) (snd p) = Some (BDbl (sumR (List.length z) (fun k => m_at (r_l r) i k * nth k z 0))).
Proof. exact prior_short. Qed.
Print Assumptions C117_no_partial_write_refuted.
Definition C117_cov : mat := {| m_n := 2; m_at := fun i j => match i, j with O, O => 4 | S O, S O => 10 | _, _ => 6 end |}.
Definition C117_root : mat := {| m_n := 2; m_at := fun i j => match i, j with O, O => 2 | S O, O => 3 | S O, S O => 1 | _, _ => 0 end |}.
Definition C117_inverse : mat := {| m_n := 2; m_at := fun i j => match i, j with O, O => 5 / 2 | S O, S O => 1 | _, _ => - (3 / 2) end |}.
Example C117_case : root_of C117_cov C117_root /\ inverse_of C117_cov C117_inverse /\
  has_numbers (bput (bput (fun _ _ => None) "p" "u_1" (BDbl 7)) "p" "u_2" (BInt 8)) [("p", "u_1"); ("p", "u_2")]%string [7; 8] /\
  exists r, prior_setup "m" "w" (fun n => if String.eqb n "uncorrelated_parameters" then Some (OStr "p/u_1 p/u_2") else if String.eqb n "output_parameters" then Some (OStr "q/v_1 q/v_2")
     else if String.eqb n "covariance" then Some (OStr "f") else None) (fun _ => Ok C117_cov) (fun _ => Some C117_root) = Ok r /\
    r_in r = pairs_of [("p", "u_1"); ("p", "u_2")]%string /\ r_out r = pairs_of [("q", "v_1"); ("q", "v_2")]%string.
Proof.
  split; [|split; [|split]].
  - split; [reflexivity|]. split; [intros [|[|i]] H; cbn in *; try lia; lra|]. split.
    + intros [|[|i]] [|[|j]] H H' H''; cbn in *; try lia; reflexivity.
    + intros [|[|i]] [|[|j]] H H'; cbn in *; try lia; lra.
  - split; [reflexivity|]. intros [|[|i]] [|[|j]] H H'; cbn in *; try lia; lra.
  - constructor; [now left|]. constructor; [right; now exists 8%Z|]. constructor.
  - eexists. split; [reflexivity|]. split; reflexivity.
Qed.
Example C117_options_case : listed [("p", "u_1"); ("p", "u_2")]%string = "p/u_1 p/u_2"%string /\ plain_name "u_1".
Proof. split; [reflexivity|]. intros [|[|[|n]]] a H; cbn in H; try discriminate H; injection H as <-; now split. Qed.
Example C117_covariance_case : let z := fun s i => match s, i with O, O => 1 | O, S O => 1 | S O, O => 1 | S O, S O => -1 | _, _ => 0 end in
  forall i j, (i < 2)%nat -> (j < 2)%nat -> sumR 2 (fun s => z s i * z s j) = if Nat.eqb i j then INR 2 else 0.
Proof. intros z [|[|i]] [|[|j]] H H'; try lia; cbn; lra. Qed.

(** * C118  from the projections and the predictions to the likelihood *)
Theorem C118_projection : forall T ht O p b b', fft_execute T p b = (b', Ok tt) \/ quad_execute ht O p b = (b', Ok tt) -> of_separation (q_output p) ->
  exists k rp, (1 <= k)%nat /\ bin_counts b' [q_output p] (fun _ => k) /\ b' (q_output p) "rp"%string = Some (BArr rp) /\
    forall i, (1 <= i <= k)%nat -> exists y, b' (q_output p) (nth_bin i) = Some (BArr y) /\ has_theory b' (q_output p) i rp y.
Proof. exact projection_theory. Qed.
Print Assumptions C118_projection.
Theorem C118_prediction : forall zd mk c b b', pred_execute zd mk c b = (b', Ok tt) -> ~ of_separation (p_out c) ->
  bin_counts b' [p_out c] (fun _ => List.length (p_suffixes c)) /\
  forall i v q, written b' (p_out c) i v q -> List.length v = List.length q -> has_theory b' (p_out c) i q v.
Proof. exact prediction_theory. Qed.
Print Assumptions C118_prediction.
(** An output section of another name than wp or ds cannot be used. *)
Theorem C118_other_name_refuted : forall T ht O p b b', fft_execute T p b = (b', Ok tt) \/ quad_execute ht O p b = (b', Ok tt) -> ~ of_separation (q_output p) ->
  b (q_output p) "mass_1"%string = None -> b (q_output p) "luminosity_1"%string = None ->
  forall to_mpc c, In (q_output p) (m_sections c) -> exists e, mini_execute to_mpc c b' = (b', Err e).
Proof. exact projection_renamed. Qed.
Print Assumptions C118_other_name_refuted.
Example C118_case : (exists T b', fft_execute T (chain_proj "ds") chain_after = (b', Ok tt)) /\ of_separation (q_output (chain_proj "ds")) /\
  (forall zd mk, exists b', pred_execute zd mk (pe_cfg false None None) pe_flat = (b', Ok tt)) /\ ~ of_separation (p_out (pe_cfg false None None)) /\
  ~ of_separation "galaxy_ds".
Proof.
  split; [destruct block_case as (T & _ & b' & _ & _ & E & _); now exists T, b'|]. split; [right; reflexivity|]. split; [intros; apply pe_flat_runs|].
  split; intros [H|H]; discriminate H.
Qed.
Example C118_other_name_case : let p := {| q_type := "wp"; q_input := "galaxy_power"; q_output := "galaxy_wp"; q_suffixes := Some ["1"; "2"]%string; q_sample := "lens" |} in
  (exists O b', quad_execute (plain_ht (fun _ => 1%R) 1) O p chain_after = (b', Ok tt)) /\ ~ of_separation (q_output p) /\
  chain_after "galaxy_wp" "mass_1" = None /\ chain_after "galaxy_wp" "luminosity_1" = None.
Proof.
  intro p. split.
  - destruct toy_ogata as (O & MK & _). exists O. refine (quad_succeeds (plain_ht (fun _ => 1%R) 1) O p chain_after 2 _ _ _); [reflexivity|lia|].
    exact (chain_bins "wp" (or_introl eq_refl)).
  - split; [intros [H|H]; discriminate H|]. split; unfold chain_after; rewrite saved_keep; try reflexivity.
    all: assert (E : forallb (fun w => match w_val w with Some _ => negb (String.eqb (w_sec w) "galaxy_wp") | None => true end) (snd (fst chain_run)) = true) by reflexivity.
    all: intros w I; rewrite forallb_forall in E; specialize (E w I); clear I; destruct (w_val w); [left|right; reflexivity]; intro Q; rewrite Q in E; discriminate E.
Qed.
