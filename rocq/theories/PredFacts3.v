(** Weighted binning, setup and the observables the pipeline writes. *)
From Coq Require Import ZArith.
From Verif Require Import Base Spec Quad Interp QuadFacts InterpFacts BaseFacts FftModel RsModel PipeModel PipeFacts OptModel ChainModel ChainFacts
  PredModel PredSpec PredFacts PredFacts2.
Open Scope R_scope.

(** ** Sums *)
Lemma in_bin_spec lo hi v : in_bin lo hi v = true <-> lo < v <= hi.
Proof. unfold in_bin. destruct (Rlt_dec lo v), (Rle_dec v hi); cbn; split; intro H; try discriminate; try reflexivity; lra. Qed.
Lemma filter_sum (g : R * R -> R) lo hi d :
  sum_list (map g (filter (fun p => in_bin lo hi (fst p)) d)) = sum_between g lo hi d.
Proof.
  induction d as [|p d IH]; [reflexivity|]. cbn [filter]. unfold sum_between. cbn [fold_right]. fold (sum_between g lo hi d). unfold in_bin at 1.
  destruct (Rlt_dec lo (fst p)), (Rle_dec (fst p) hi); cbn [andb map sum_list fold_right]; fold sum_list; rewrite <- ?IH; unfold sum_list; lra.
Qed.
Lemma between_ext g h lo hi d : (forall p, In p d -> lo < fst p <= hi -> g p = h p) -> sum_between g lo hi d = sum_between h lo hi d.
Proof.
  unfold sum_between. induction d as [|p d IH]; intro H; [reflexivity|]. cbn [fold_right]. rewrite IH by (intros q I; apply H; now right).
  destruct (Rlt_dec lo (fst p)) as [A|]; [|reflexivity]. destruct (Rle_dec (fst p) hi) as [B|]; [|reflexivity]. rewrite (H p); [reflexivity|now left|lra].
Qed.
Lemma between_le g h lo hi d : (forall p, In p d -> lo < fst p <= hi -> g p <= h p) -> sum_between g lo hi d <= sum_between h lo hi d.
Proof.
  unfold sum_between. induction d as [|p d IH]; intro H; [cbn; lra|]. cbn [fold_right]. assert (IH' := IH (fun q I => H q (or_intror I))).
  destruct (Rlt_dec lo (fst p)) as [A|]; [|lra]. destruct (Rle_dec (fst p) hi) as [B|]; [|lra]. pose proof (H p (or_introl eq_refl) ltac:(lra)). lra.
Qed.
Lemma between_scal c g lo hi d : sum_between (fun p => c * g p) lo hi d = c * sum_between g lo hi d.
Proof.
  unfold sum_between. induction d as [|p d IH]; [cbn; ring|]. cbn [fold_right]. rewrite IH.
  destruct (Rlt_dec lo (fst p)); [|ring]. destruct (Rle_dec (fst p) hi); ring.
Qed.
Lemma between_join g a b c d : a <= b -> b <= c -> sum_between g a b d + sum_between g b c d = sum_between g a c d.
Proof.
  intros H1 H2. unfold sum_between. induction d as [|p d IH]; [cbn; ring|]. cbn [fold_right]. rewrite <- IH.
  destruct (Rlt_dec a (fst p)); destruct (Rle_dec (fst p) b); destruct (Rlt_dec b (fst p)); destruct (Rle_dec (fst p) c); try lra.
Qed.
Lemma between_none g a d : sum_between g a a d = 0.
Proof. unfold sum_between. induction d as [|p d IH]; [reflexivity|]. cbn [fold_right]. rewrite IH. destruct (Rlt_dec a (fst p)); destruct (Rle_dec (fst p) a); lra. Qed.
Lemma between_edges g a b n d : a <= b -> (0 < n)%nat ->
  sumR n (fun j => sum_between g (edge a b n j) (edge a b n (j + 1)) d) = sum_between g a b d.
Proof.
  intros H N. assert (Hn : 0 < INR n) by now apply lt_0_INR.
  assert (S : 0 <= (b - a) / INR n) by (apply Rmult_le_pos; [lra|]; left; now apply Rinv_0_lt_compat).
  assert (K : forall m, sumR m (fun j => sum_between g (edge a b n j) (edge a b n (j + 1)) d) = sum_between g a (edge a b n m) d).
  { induction m as [|m IH].
    - cbn [sumR]. unfold edge. cbn. rewrite Rmult_0_l, Rplus_0_r, between_none. reflexivity.
    - cbn [sumR]. rewrite IH, Nat.add_1_r. unfold edge. pose proof (pos_INR m). apply between_join; rewrite ?S_INR; nra. }
  rewrite K. f_equal. unfold edge. field. lra.
Qed.
Lemma mean_bounds f d a b n j v lo hi : bin_mean f d a b n j v ->
  (forall p, In p d -> 0 <= snd p) -> 0 < sum_between snd (edge a b n j) (edge a b n (j + 1)) d ->
  (forall p, In p d -> edge a b n j < fst p <= edge a b n (j + 1) -> lo <= f (Rpower 10 (fst p)) <= hi) -> lo <= v <= hi.
Proof.
  unfold bin_mean. set (e1 := edge a b n j). set (e2 := edge a b n (j + 1)). set (W := sum_between snd e1 e2 d). intros E P Wp B.
  assert (L : lo * W <= v * W).
  { rewrite E. unfold W. rewrite <- between_scal. apply between_le. intros p I Hp. apply Rmult_le_compat_r; [now apply P|]. now apply B. }
  assert (U : v * W <= hi * W).
  { rewrite E. unfold W. rewrite <- between_scal. apply between_le. intros p I Hp. apply Rmult_le_compat_r; [now apply P|]. now apply B. }
  split; [eapply Rmult_le_reg_r|eapply Rmult_le_reg_r]; eassumption.
Qed.
Lemma means_conserve f d a b n (v : nat -> R) : a <= b -> (0 < n)%nat -> (forall j, (j < n)%nat -> bin_mean f d a b n j (v j)) ->
  sumR n (fun j => v j * sum_between snd (edge a b n j) (edge a b n (j + 1)) d) = sum_between (fun p => f (Rpower 10 (fst p)) * snd p) a b d.
Proof. intros H N M. rewrite (sumR_ext _ _ _ (fun j Hj => M j Hj)). now apply between_edges. Qed.

(** ** Weighted binning *)
Definition ones_on (v : list R) : list (R * R) := map (fun x => (x, 1)) v.
Lemma plain_is_dist zd f v lo hi : plain_mean zd f v lo hi = dist_mean zd f (ones_on v) lo hi.
Proof.
  unfold plain_mean, dist_mean. f_equal.
  - induction v as [|x v IH]; [reflexivity|]. cbn [ones_on map filter fst]. fold (ones_on v). destruct (in_bin lo hi x); cbn [map sum_list fold_right fst snd]; rewrite ?IH.
    + fold sum_list. unfold sum_list in IH |- *. rewrite IH. cbn. ring.
    + reflexivity.
  - induction v as [|x v IH]; [reflexivity|]. cbn [ones_on map filter fst]. fold (ones_on v). destruct (in_bin lo hi x).
    + cbn [List.length map sum_list fold_right snd]. rewrite S_INR, IH. unfold sum_list. ring.
    + exact IH.
Qed.
Definition points_of (c : pconfig) : list (R * R) :=
  match p_dist c with Some d => d | None => ones_on (fine_grid (p_min c) (p_max c)) end.
Lemma edges_lin a b n j : (j <= n)%nat -> (0 < n)%nat -> linspace a b (n + 1) j = edge a b n j.
Proof. intros L N. rewrite linspace_eq by lia. unfold edge. do 3 f_equal. f_equal. lia. Qed.
Lemma quotient_eq zd a b : b <> 0 -> quotient zd a b * b = a.
Proof. intro H. unfold quotient. destruct (Req_EM_T b 0); [contradiction|]. field. exact H. Qed.
Lemma binned_values zd c i f v : binned zd c i f = Ok v ->
  let n := Z.to_nat (nth i (p_n c) 0%Z) in let a := nth i (p_min c) 0 in let b := nth i (p_max c) 0 in
  List.length v = n /\ forall j, (j < n)%nat ->
    (sum_between snd (edge a b n j) (edge a b n (j + 1)) (points_of c) <> 0 -> bin_mean f (points_of c) a b n j (nth j v 0)) /\
    (sum_between snd (edge a b n j) (edge a b n (j + 1)) (points_of c) = 0 ->
     nth j v 0 = zd (sum_between (fun p => f (Rpower 10 (fst p)) * snd p) (edge a b n j) (edge a b n (j + 1)) (points_of c))).
Proof.
  intros H n a b. unfold binned in H. fold n a b in H.
  assert (K : v = map (fun j => dist_mean zd f (points_of c) (linspace a b (n + 1) j) (linspace a b (n + 1) (j + 1))) (seq 0 n)).
  { unfold points_of. destruct (p_dist c) as [[|p [|p' d]]|]; inversion H; subst v; [reflexivity|]. apply map_ext. intro j. apply plain_is_dist. }
  split; [rewrite K, map_length, seq_length; reflexivity|]. intros j Hj.
  assert (E : nth j v 0 = dist_mean zd f (points_of c) (edge a b n j) (edge a b n (j + 1))).
  { rewrite K. rewrite (nth_map_lt _ _ 0%nat) by (rewrite seq_length; exact Hj). rewrite seq_nth by exact Hj. cbn [Nat.add].
    rewrite !edges_lin by lia. reflexivity. }
  unfold dist_mean in E. rewrite !filter_sum in E. split; intro W.
  - unfold bin_mean. rewrite E. apply quotient_eq, W.
  - rewrite E. unfold quotient. destruct (Req_EM_T _ 0) as [_|N]; [reflexivity|contradiction].
Qed.
Lemma weighted_flat zd mk c b b' i x y : pred_execute zd mk c b = (b', Ok tt) -> p_weighted c = true -> p_cosmo c = None ->
  (i < List.length (p_suffixes c))%nat -> has_flat b (p_in c) (nth i (p_suffixes c) ""%string) x y -> rising x ->
  let n := Z.to_nat (nth i (p_n c) 0%Z) in let lo := nth i (p_min c) 0 in let hi := nth i (p_max c) 0 in
  exists v f, written b' (p_out c) (i + 1) v (nth i (p_obs c) []) /\ List.length v = n /\ (forall q, says x y q (f q)) /\
    forall j, (j < n)%nat ->
      (sum_between snd (edge lo hi n j) (edge lo hi n (j + 1)) (points_of c) <> 0 -> bin_mean f (points_of c) lo hi n j (nth j v 0)) /\
      (sum_between snd (edge lo hi n j) (edge lo hi n (j + 1)) (points_of c) = 0 ->
       nth j v 0 = zd (sum_between (fun p => f (Rpower 10 (fst p)) * snd p) (edge lo hi n j) (edge lo hi n (j + 1)) (points_of c))).
Proof.
  intros H W C Hi F Rx n lo hi. destruct (execute_runs _ _ _ _ _ H) as (run & _ & P & _). destruct (P i Hi) as (v & E & Wr).
  apply bin_none in E; [|exact C]. unfold raw_bin in E. rewrite (load_flat _ _ _ _ _ F), W in E. cbn [bind first_row] in E.
  destruct (binned zd c i (row_interp x y)) as [v'|] eqn:B; [|discriminate]. cbn [bind] in E. inversion E; subst v'. clear E.
  exists v, (row_interp x y). split; [exact Wr|]. destruct (binned_values _ _ _ _ _ B) as [L V]. split; [exact L|].
  split; [intro q; apply says_value, Rx|exact V].
Qed.
Lemma weighted_table zd mk c b b' i z x t sample zn nn : pred_execute zd mk c b = (b', Ok tt) -> p_weighted c = true -> p_cosmo c = None ->
  (i < List.length (p_suffixes c))%nat -> has_table b (p_in c) (nth i (p_suffixes c) ""%string) z x t ->
  p_sample c = Some sample -> has_nz b sample (i + 1) zn nn -> rising x -> rising zn -> (1 <= List.length z)%nat ->
  let n := Z.to_nat (nth i (p_n c) 0%Z) in let lo := nth i (p_min c) 0 in let hi := nth i (p_max c) 0 in
  exists v w f m, written b' (p_out c) (i + 1) v (nth i (p_obs c) []) /\ List.length v = n /\
    (forall k, (k < List.length z)%nat -> says zn nn (nth k z 0) (w k)) /\
    (forall q, says x (nth 0 t []) q (f q)) /\
    forall j, (j < n)%nat ->
      (sum_between snd (edge lo hi n j) (edge lo hi n (j + 1)) (points_of c) <> 0 -> bin_mean f (points_of c) lo hi n j (m j)) /\
      nth j v 0 = m j * simpson (List.length z) w (fun k => nth k z 0).
Proof.
  intros H W C Hi F S N Rx Rz L1 n lo hi. destruct (execute_runs _ _ _ _ _ H) as (run & _ & P & _). destruct (P i Hi) as (v & E & Wr).
  apply bin_none in E; [|exact C]. unfold raw_bin in E. rewrite (load_table _ _ _ _ _ _ F), W in E. destruct F as (_ & _ & _ & LT & _).
  destruct t as [|r0 t]; [cbn in LT; lia|]. cbn [map bind first_row] in E. destruct (binned zd c i (row_interp x r0)) as [v'|] eqn:B; [|discriminate]. cbn [bind] in E.
  unfold need_sample in E. rewrite S in E. cbn [bind] in E. rewrite (load_nz _ _ _ _ _ _ N) in E. cbn [bind] in E. inversion E; subst v.
  destruct (binned_values _ _ _ _ _ B) as [L V].
  eexists. exists (fun k => row_interp zn nn (nth k z 0)), (row_interp x r0), (fun j => nth j v' 0). split; [exact Wr|]. rewrite map_length. split; [exact L|].
  split; [intros k _; apply says_value, Rz|]. split; [intro q; apply says_value, Rx|]. intros j Hj. split; [apply V; exact Hj|].
  rewrite (nth_map_lt _ _ 0) by (fold n in L; rewrite L; exact Hj). unfold over_z. rewrite <- simpson_scal. apply simpson_ext; [exact L1| |reflexivity].
  intros k Hk. rewrite (nth_map_lt _ _ 0) by exact Hk. ring.
Qed.
(** The fine grid. *)
Lemma fine_grid_points lo hi : (1 < fine_points)%nat ->
  List.length (fine_grid lo hi) = fine_points /\
  forall j, (j < fine_points)%nat -> nth j (fine_grid lo hi) 0 = lowest lo + INR j * ((highest hi - lowest lo) / INR (fine_points - 1)).
Proof.
  intro F. unfold fine_grid. rewrite map_length, seq_length. split; [reflexivity|]. intros j Hj.
  rewrite (nth_map_lt _ _ 0%nat) by (rewrite seq_length; exact Hj). rewrite seq_nth by exact Hj. cbn [Nat.add]. rewrite linspace_eq by lia. reflexivity.
Qed.
Lemma fmin_case a b : (fmin a b = a /\ a <= b) \/ (fmin a b = b /\ b < a).
Proof. unfold fmin. destruct (Rle_dec a b); [left|right]; split; auto; lra. Qed.
Lemma fmax_case a b : (fmax a b = b /\ a <= b) \/ (fmax a b = a /\ b < a).
Proof. unfold fmax. destruct (Rle_dec a b); [left|right]; split; auto; lra. Qed.
Lemma lowest_spec l : l <> [] -> In (lowest l) l /\ forall x, In x l -> lowest l <= x.
Proof.
  destruct l as [|x0 l]; [contradiction|]. intros _. unfold lowest. cbn [hd].
  assert (K : forall l, (fold_right fmin x0 l = x0 \/ In (fold_right fmin x0 l) l) /\ forall x, In x l -> fold_right fmin x0 l <= x).
  { clear. induction l as [|y l (A & D)]; [cbn; split; [now left|contradiction]|]. cbn [fold_right].
    destruct (fmin_case y (fold_right fmin x0 l)) as [[-> H]|[-> H]].
    - split; [right; now left|]. intros x [<-|I]; [lra|]. specialize (D x I). lra.
    - split; [destruct A as [A|A]; [now left|right; now right]|]. intros x [<-|I]; [lra|]. exact (D x I). }
  destruct (K (x0 :: l)) as (A & D). split; [|exact D]. destruct A as [->|A]; [now left|exact A].
Qed.
Lemma highest_spec l : l <> [] -> In (highest l) l /\ forall x, In x l -> x <= highest l.
Proof.
  destruct l as [|x0 l]; [contradiction|]. intros _. unfold highest. cbn [hd].
  assert (K : forall l, (fold_right fmax x0 l = x0 \/ In (fold_right fmax x0 l) l) /\ forall x, In x l -> x <= fold_right fmax x0 l).
  { clear. induction l as [|y l (A & D)]; [cbn; split; [now left|contradiction]|]. cbn [fold_right].
    destruct (fmax_case y (fold_right fmax x0 l)) as [[-> H]|[-> H]].
    - split; [destruct A as [A|A]; [now left|right; now right]|]. intros x [<-|I]; [lra|]. exact (D x I).
    - split; [right; now left|]. intros x [<-|I]; [lra|]. specialize (D x I). lra. }
  destruct (K (x0 :: l)) as (A & D). split; [|exact D]. destruct A as [->|A]; [now left|exact A].
Qed.
