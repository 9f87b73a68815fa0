(** The weighted predictions in the words of the properties, and an example. *)
From Coq Require Import ZArith Ascii.
From Verif Require Import Base Spec Quad Interp QuadFacts InterpFacts BaseFacts FftModel RsModel PipeModel PipeSpec PipeFacts OptModel ChainModel ChainFacts
  PredModel PredSpec PredFacts PredFacts2 PredFacts3 PredFacts4.
Open Scope R_scope.

Lemma weighted_file zd mk c b b' i x y d : pred_execute zd mk c b = (b', Ok tt) -> p_weighted c = true -> p_cosmo c = None -> p_dist c = Some d ->
  (i < List.length (p_suffixes c))%nat -> has_flat b (p_in c) (nth i (p_suffixes c) ""%string) x y -> rising x ->
  let n := Z.to_nat (nth i (p_n c) 0%Z) in let lo := nth i (p_min c) 0 in let hi := nth i (p_max c) 0 in
  exists v f, written b' (p_out c) (i + 1) v (nth i (p_obs c) []) /\ List.length v = n /\ (forall q, says x y q (f q)) /\
    forall j, (j < n)%nat ->
      (sum_between snd (edge lo hi n j) (edge lo hi n (j + 1)) d <> 0 -> bin_mean f d lo hi n j (nth j v 0)) /\
      (sum_between snd (edge lo hi n j) (edge lo hi n (j + 1)) d = 0 ->
       nth j v 0 = zd (sum_between (fun p => f (Rpower 10 (fst p)) * snd p) (edge lo hi n j) (edge lo hi n (j + 1)) d)).
Proof.
  intros H W C D Hi F Rx n lo hi. destruct (weighted_flat _ _ _ _ _ _ _ _ H W C Hi F Rx) as (v & f & A & L & S & V).
  exists v, f. split; [exact A|]. split; [exact L|]. split; [exact S|]. unfold points_of in V. rewrite D in V. exact V.
Qed.
Lemma weighted_grid zd mk c b b' i x y : pred_execute zd mk c b = (b', Ok tt) -> p_weighted c = true -> p_cosmo c = None -> p_dist c = None ->
  p_min c <> [] -> p_max c <> [] ->
  (i < List.length (p_suffixes c))%nat -> has_flat b (p_in c) (nth i (p_suffixes c) ""%string) x y -> rising x ->
  let n := Z.to_nat (nth i (p_n c) 0%Z) in let lo := nth i (p_min c) 0 in let hi := nth i (p_max c) 0 in
  exists v f d least most, written b' (p_out c) (i + 1) v (nth i (p_obs c) []) /\ List.length v = n /\ (forall q, says x y q (f q)) /\
    (In least (p_min c) /\ forall u, In u (p_min c) -> least <= u) /\ (In most (p_max c) /\ forall u, In u (p_max c) -> u <= most) /\
    Z.of_nat (List.length d) = 10000%Z /\
    (forall k, (k < List.length d)%nat -> nth k d (0, 0) = (least + INR k * ((most - least) / 9999), 1)) /\
    forall j, (j < n)%nat ->
      sum_between snd (edge lo hi n j) (edge lo hi n (j + 1)) d <> 0 -> bin_mean f d lo hi n j (nth j v 0).
Proof.
  intros H W C D N1 N2 Hi F Rx n lo hi. destruct (weighted_flat _ _ _ _ _ _ _ _ H W C Hi F Rx) as (v & f & A & L & S & V).
  exists v, f, (points_of c), (lowest (p_min c)), (highest (p_max c)). split; [exact A|]. split; [exact L|]. split; [exact S|].
  split; [now apply lowest_spec|]. split; [now apply highest_spec|]. unfold points_of. rewrite D. unfold ones_on. rewrite map_length.
  assert (Q : (1 < fine_points)%nat) by (unfold fine_points; lia). destruct (fine_grid_points (p_min c) (p_max c) Q) as [L2 G]. rewrite L2.
  split; [unfold fine_points; lia|]. split.
  - intros k Hk. rewrite (nth_map_lt _ _ 0) by (rewrite L2; exact Hk). rewrite G by exact Hk. replace (INR (fine_points - 1)) with 9999; [reflexivity|].
    rewrite INR_IZR_INZ. apply f_equal. unfold fine_points. lia.
  - intros j Hj Z. destruct (V j Hj) as [V1 _]. unfold points_of in V1. rewrite D in V1. apply V1, Z.
Qed.
Lemma lower_edge g a b n j w d : a <= b -> (0 < n)%nat -> sum_between g (edge a b n j) (edge a b n (j + 1)) ((a, w) :: d) = sum_between g (edge a b n j) (edge a b n (j + 1)) d.
Proof.
  intros H N. unfold sum_between. cbn [fold_right fst]. destruct (Rlt_dec (edge a b n j) a) as [L|L]; [|lra]. exfalso. unfold edge in L.
  assert (0 < INR n) by now apply lt_0_INR. assert (0 <= (b - a) / INR n) by (apply Rmult_le_pos; [lra|]; left; now apply Rinv_0_lt_compat). pose proof (pos_INR j). nra.
Qed.

(** ** An example *)
Definition pe_x : list R := [1; 10; 100].
Definition pe_t : obs_table := {| t_z := [0; 1; 2]; t_obs := pe_x; t_tot := [[4; 5; 6]; [4; 5; 6]; [7; 8; 9]]; t_cen := []; t_sat := [] |}.
Definition pe_empty : dblock := fun _ _ => None.
Definition pe_flat : dblock := save_obs_block true "stellar_mass_function" [pe_t] pe_empty.
Definition pe_block : dblock :=
  bput (bput (save_obs_block false "stellar_mass_function" [pe_t; pe_t] pe_empty) "nz" "z" (BArr [0; 1; 2])) "nz" "bin_1" (BArr [1; 1 / 2; 0]).
Definition pe_cfg (weighted : bool) (dist : option (list (R * R))) (data : option cosmo) : pconfig :=
  {| p_in := "stellar_mass_function"; p_out := "obs_out"; p_suffixes := ["1"%string]; p_sample := Some "nz"%string; p_weighted := weighted;
     p_dist := dist; p_min := [0]; p_max := [2]; p_zmin := [1]; p_zmax := [2]; p_n := [2%Z]; p_edges := true;
     p_obs := [[Rpower 10 (1 / 2); Rpower 10 (3 / 2)]]; p_cosmo := data |}.
Lemma pe_rising : rising pe_x.
Proof. split; [cbn; lia|]. intros [|[|i]] H; cbn in *; try lra; lia. Qed.
Lemma pe_z_rising : rising [0; 1; 2].
Proof. split; [cbn; lia|]. intros [|[|i]] H; cbn in *; try lra; lia. Qed.
Lemma pe_has_flat : has_flat pe_flat "stellar_mass_function" "1" pe_x [4; 5; 6].
Proof. exact (saved_flat "stellar_mass_function" [pe_t] pe_empty 0 pe_t ltac:(cbn; lia) eq_refl eq_refl). Qed.
Lemma pe_has_table : has_table pe_block "stellar_mass_function" "1" [0; 1; 2] pe_x [[4; 5; 6]; [4; 5; 6]; [7; 8; 9]].
Proof.
  assert (H := saved_table "stellar_mass_function" [pe_t; pe_t] pe_empty 0 pe_t ltac:(cbn; lia) eq_refl). cbn [nth t_tot t_obs t_z pe_t] in H.
  destruct H as (A & B & C & D & E); [intros r [<-|[<-|[<-|[]]]]; reflexivity|]. unfold pe_block.
  repeat split; try (rewrite !bput_other by (left; discriminate); assumption); assumption.
Qed.
Lemma pe_has_nz : has_nz pe_block "nz" 1 [0; 1; 2] [1; 1 / 2; 0].
Proof. repeat split. Qed.
Lemma pe_fresh_flat : fresh pe_flat "obs_out" 1.
Proof. intros i Hi. assert (i = 1%nat) by lia. subst i. repeat split. Qed.
Lemma pe_fresh : fresh pe_block "obs_out" 1.
Proof. intros i Hi. assert (i = 1%nat) by lia. subst i. repeat split. Qed.
Lemma pe_flat_runs zd mk : exists b', pred_execute zd mk (pe_cfg false None None) pe_flat = (b', Ok tt).
Proof.
  apply flat_runs; [reflexivity|reflexivity|exact pe_fresh_flat|]. intros i Hi. cbn in Hi. assert (i = 0%nat) by lia. subst i. exists pe_x, [4; 5; 6]. exact pe_has_flat.
Qed.
Lemma pe_table_runs zd mk : exists b', pred_execute zd mk (pe_cfg false None None) pe_block = (b', Ok tt).
Proof.
  apply (table_runs zd mk _ _ "nz"%string); [reflexivity|reflexivity|reflexivity|exact pe_fresh| |].
  - intros i Hi. cbn in Hi. assert (i = 0%nat) by lia. subst i. do 3 eexists. exact pe_has_table.
  - intros i Hi. cbn in Hi. assert (i = 0%nat) by lia. subst i. do 2 eexists. exact pe_has_nz.
Qed.
Definition pe_dist : list (R * R) := [(1 / 2, 1); (1, 3); (3 / 2, 2)].
Lemma pe_weighted_runs zd mk : exists b', pred_execute zd mk (pe_cfg true (Some pe_dist) None) pe_flat = (b', Ok tt).
Proof.
  apply (execute_ends _ _ _ _ None); [reflexivity|exact pe_fresh_flat|]. intros i Hi. cbn in Hi. assert (i = 0%nat) by lia. subst i.
  unfold pred_bin, raw_bin. cbn [p_in p_suffixes pe_cfg nth]. rewrite (load_flat _ _ _ _ _ pe_has_flat). cbn [bind p_weighted pe_cfg first_row]. eexists. reflexivity.
Qed.
Lemma pe_weighted_table_runs zd mk : exists b', pred_execute zd mk (pe_cfg true (Some pe_dist) None) pe_block = (b', Ok tt).
Proof.
  apply (execute_ends _ _ _ _ None); [reflexivity|exact pe_fresh|]. intros i Hi. cbn in Hi. assert (i = 0%nat) by lia. subst i.
  unfold pred_bin, raw_bin. cbn [p_in p_suffixes pe_cfg nth]. rewrite (load_table _ _ _ _ _ _ pe_has_table). cbn [bind p_weighted pe_cfg first_row map]. unfold need_sample. cbn [p_sample pe_cfg].
  cbn [binned p_dist pe_cfg pe_dist bind]. rewrite (load_nz _ _ _ _ _ _ pe_has_nz). cbn [bind]. eexists. reflexivity.
Qed.
(** A cosmology whose comoving distance is k z. *)
Definition pe_cosmo (k h : R) : cosmo := {| c_h := h; c_dist := fun z => k * z; c_e := fun _ => 1; c_da := fun _ => 1; c_da12 := fun _ _ => 1 |}.
Definition pe_params (b : dblock) : dblock :=
  fold_left (fun b n => bput b "cosmological_parameters" n (BDbl 1)) ["hubble"; "omega_b"; "omega_m"; "mnu"; "w"; "wa"]%string b.
Lemma pe_corrected_runs zd : exists b', pred_execute zd (fun _ => pe_cosmo 2 (7 / 10)) (pe_cfg false None (Some (pe_cosmo 1 1))) (pe_params pe_flat) = (b', Ok tt).
Proof.
  eapply execute_ends.
  - unfold run_cosmo. cbn [p_cosmo pe_cfg p_zmin p_zmax p_suffixes List.length Nat.eqb andb negb]. reflexivity.
  - intros i Hi. cbn in Hi. assert (i = 1%nat) by lia. subst i. repeat split.
  - intros i Hi. cbn in Hi. assert (i = 0%nat) by lia. subst i. unfold pred_bin, raw_bin. cbn [p_in p_suffixes pe_cfg nth].
    rewrite (load_flat _ _ _ pe_x [4; 5; 6]).
    + cbn [bind p_weighted pe_cfg p_cosmo]. eexists. reflexivity.
    + destruct pe_has_flat as (A & B & C & D). repeat split; try assumption; unfold pe_params; cbn [fold_left]; rewrite !bput_other by (left; discriminate); assumption.
Qed.
