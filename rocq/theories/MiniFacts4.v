(** The likelihood of mini_2pt_like.py: integrated theory points and runs. *)
From Coq Require Import ZArith.
From Verif Require Import Base Spec BaseFacts Interp InterpFacts QuadFacts FftModel PipeModel OptModel TpModel TpSpec TpFacts TpFacts6 ChainModel ChainFacts
  PredSpec PredFacts2 MiniModel MiniSpec MiniFacts MiniFacts2 MiniFacts3.
From Coq Require Import List.
Open Scope R_scope.

(** ** Edges *)
Lemma ln_ten : 0 < ln ten.
Proof. rewrite <- ln_1. apply ln_increasing; unfold ten; lra. Qed.
Lemma pow10_log10 v : 0 < v -> pow10 (log10 v) = v.
Proof. intro P. unfold pow10, log10, Rpower. pose proof ln_ten. replace (ln v / ln ten * ln ten) with (ln v) by (field; lra). now apply exp_ln. Qed.
Lemma mid_sqrt u v : 0 < u -> 0 < v -> pow10 ((log10 v + log10 u) * (1 / 2)) = sqrt (u * v).
Proof.
  intros U V. rewrite <- Rpower_sqrt by (apply Rmult_lt_0_compat; assumption). unfold pow10, log10, Rpower. f_equal. rewrite ln_mult by assumption.
  pose proof ln_ten. field. lra.
Qed.
Lemma end_sqrt u v : 0 < u -> 0 < v -> pow10 (2 * log10 u - (log10 v + log10 u) * (1 / 2)) = u * sqrt (u / v).
Proof.
  intros U V. assert (P : 0 < u / v) by (apply Rdiv_lt_0_compat; assumption). rewrite <- Rpower_sqrt by exact P. transitivity (exp (ln u) * Rpower (u / v) (/ 2)); [|now rewrite (exp_ln u U)].
  unfold pow10, log10, Rpower, Rdiv. rewrite <- exp_plus. f_equal. rewrite ln_mult by (try assumption; now apply Rinv_0_lt_compat). rewrite ln_Rinv by assumption.
  pose proof ln_ten. field. lra.
Qed.
Lemma edges_at x : scales x -> edges_of x = map (edge_at x) (seq 0 (List.length x + 1)).
Proof.
  intro S. pose proof (proj1 (proj1 S)) as N. set (n := List.length x) in *. unfold edges_of. fold n.
  assert (P : forall i, (i < n)%nat -> 0 < nth i x 0) by (intros; now apply scales_pos).
  replace (seq 0 (n + 1)) with (0%nat :: map Datatypes.S (seq 0 (n - 1)) ++ [n])%list.
  2:{ rewrite seq_shift. replace (n + 1)%nat with (1 + ((n - 1) + 1))%nat by lia. rewrite !seq_app. cbn. repeat f_equal. lia. }
  cbn [map]. rewrite !map_app, !map_map. cbn [map]. f_equal; [|f_equal].
  - unfold edge_at. cbn [Nat.eqb]. rewrite end_sqrt by (apply P; lia). reflexivity.
  - apply map_ext_in. intros i I. apply in_seq in I. unfold edge_at. fold n. replace (Nat.eqb (Datatypes.S i) 0) with false by reflexivity.
    replace (Nat.eqb (Datatypes.S i) n) with false by (symmetry; apply Nat.eqb_neq; lia). rewrite mid_sqrt by (apply P; lia). f_equal. replace (Datatypes.S i - 1)%nat with i by lia. now rewrite Nat.add_1_r.
  - f_equal. unfold edge_at. fold n. replace (Nat.eqb n 0) with false by (symmetry; apply Nat.eqb_neq; lia). rewrite Nat.eqb_refl.
    replace (n - 2 + 1)%nat with (n - 1)%nat by lia. rewrite (Rplus_comm (log10 (nth (n - 1) x 0))). apply end_sqrt; apply P; lia.
Qed.
Lemma sqrt_between u v : 0 < u -> u < v -> u < sqrt (u * v) < v.
Proof.
  intros U V. split; apply Rsqr_incrst_0; try (apply sqrt_pos); try lra; rewrite Rsqr_sqrt by (apply Rmult_le_pos; lra); unfold Rsqr; nra.
Qed.
Lemma sqrt_low u v : 0 < u -> u < v -> u * sqrt (u / v) < u.
Proof.
  intros U V. assert (sqrt (u / v) < 1); [|nra]. rewrite <- sqrt_1. apply sqrt_lt_1_alt. split; [left; apply Rdiv_lt_0_compat; lra|].
  apply (Rmult_lt_reg_r v); [lra|]. unfold Rdiv. rewrite Rmult_assoc, Rinv_l by lra. lra.
Qed.
Lemma sqrt_high u v : 0 < v -> v < u -> u < u * sqrt (u / v).
Proof.
  intros U V. assert (1 < sqrt (u / v)); [|nra]. rewrite <- sqrt_1 at 1. apply sqrt_lt_1_alt. split; [lra|].
  apply (Rmult_lt_reg_r v); [lra|]. unfold Rdiv. rewrite Rmult_assoc, Rinv_l by lra. lra.
Qed.
Lemma edges_around x j : scales x -> (j < List.length x)%nat -> edge_at x j < nth j x 0 < edge_at x (j + 1).
Proof.
  intros S Hj. pose proof (proj1 (proj1 S)) as N. pose proof (proj2 (proj1 S)) as I. assert (P : forall i, (i < List.length x)%nat -> 0 < nth i x 0) by (intros; now apply scales_pos).
  unfold edge_at. split.
  - destruct (Nat.eqb_spec j 0) as [-> |Z0]; [apply sqrt_low; [apply P; lia|apply I; lia]|]. destruct (Nat.eqb_spec j (List.length x)); [lia|].
    apply sqrt_between; [apply P; lia|]. specialize (I (j - 1)%nat ltac:(lia)). now replace (Datatypes.S (j - 1)) with j in I by lia.
  - destruct (Nat.eqb_spec (j + 1) 0) as [Z0|_]; [lia|]. destruct (Nat.eqb_spec (j + 1) (List.length x)) as [E|E].
    + replace (List.length x - 1)%nat with j by lia. apply sqrt_high; [apply P; lia|]. specialize (I (List.length x - 2)%nat ltac:(lia)). now replace (Datatypes.S (List.length x - 2)) with j in I by lia.
    + replace (j + 1 - 1)%nat with j by lia. apply sqrt_between; [apply P; lia|]. rewrite Nat.add_1_r. apply I. lia.
Qed.

(** ** Trapezoids *)
Lemma combine_seq (x y : list R) : List.length x = List.length y -> combine x y = map (fun k => (nth k x 0, nth k y 0)) (seq 0 (List.length x)).
Proof.
  intro L. apply nth_ext with (0, 0) (0, 0); [rewrite combine_length, map_length, seq_length; lia|]. intros i Hi. rewrite combine_length in Hi.
  rewrite combine_nth by exact L. rewrite (nth_map_lt _ _ 0%nat) by (rewrite seq_length; lia). rewrite seq_nth by lia. reflexivity.
Qed.
Lemma filter_map_comm {A B} (f : A -> B) P l : filter P (map f l) = map f (filter (fun a => P (f a)) l).
Proof. induction l as [|a l IH]; [reflexivity|]. cbn. rewrite IH. now destruct (P (f a)). Qed.
Lemma filter_all {A} (P : A -> bool) l : (forall a, In a l -> P a = true) -> filter P l = l.
Proof. induction l as [|a l IH]; intro H; [reflexivity|]. cbn. rewrite H by now left. f_equal. apply IH. intros z I. apply H. now right. Qed.
Lemma filter_none {A} (P : A -> bool) l : (forall a, In a l -> P a = false) -> filter P l = [].
Proof. induction l as [|a l IH]; intro H; [reflexivity|]. cbn. rewrite H by now left. apply IH. intros z I. apply H. now right. Qed.
Lemma inside_iff lo hi v : inside lo hi v = true <-> lo <= v < hi.
Proof. unfold inside. destruct (Rle_dec lo v); destruct (Rlt_dec v hi); cbn; split; intro H; try reflexivity; try discriminate; try lra; split; assumption. Qed.
Lemma inside_seg x y lo hi i n : List.length x = List.length y -> nodes_in x lo hi i n ->
  filter (fun p => inside lo hi (fst p)) (combine x y) = map (fun k => (nth k x 0, nth k y 0)) (seq i (n + 1)).
Proof.
  intros L [B I]. rewrite combine_seq by exact L. rewrite filter_map_comm. f_equal. cbn [fst].
  replace (List.length x) with (i + ((n + 1) + (List.length x - i - n - 1)))%nat by lia. rewrite seq_app, (seq_app (n + 1)), !filter_app. rewrite !Nat.add_0_l.
  rewrite (filter_none _ (seq 0 i)), (filter_all _ (seq i (n + 1))), (filter_none _ (seq (i + (n + 1)) _)).
  - now rewrite app_nil_r.
  - intros k K. apply in_seq in K. destruct (inside lo hi (nth k x 0)) eqn:Q; [|reflexivity]. apply inside_iff, I in Q; lia.
  - intros k K. apply in_seq in K. apply inside_iff, I; lia.
  - intros k K. apply in_seq in K. destruct (inside lo hi (nth k x 0)) eqn:Q; [|reflexivity]. apply inside_iff, I in Q; lia.
Qed.
Lemma trapz_seg x y i n : trapz (map (fun k => (nth k x 0, nth k y 0)) (seq i (n + 1))) = trapezoids x y i n.
Proof.
  unfold trapz, trapezoids. rewrite map_length, seq_length. replace (n + 1 - 1)%nat with n by lia. apply sumR_ext. intros k Hk.
  rewrite !(nth_map_lt _ _ 0%nat) by (rewrite seq_length; lia). rewrite !seq_nth by lia. cbn [fst snd]. now rewrite Nat.add_assoc.
Qed.
Lemma trapezoids_const x y v i n : (forall k, (i <= k <= i + n)%nat -> nth k y 0 = v) -> trapezoids x y i n = v * (nth (i + n) x 0 - nth i x 0).
Proof.
  intro H. unfold trapezoids. transitivity (sumR n (fun k => v * (nth (i + k + 1) x 0 - nth (i + k) x 0))).
  - apply sumR_ext. intros k Hk. rewrite !H by lia. field.
  - rewrite sumR_scal. f_equal. clear H. induction n as [|n IH]; [cbn; rewrite Nat.add_0_r; ring|]. cbn [sumR]. rewrite IH. rewrite <- (Nat.add_assoc i n 1), Nat.add_1_r. ring.
Qed.
Lemma point_integrate tx ty dx edges t : theory_point "integrate" tx ty dx edges = Ok t ->
  List.length tx = List.length ty /\ List.length t = (List.length edges - 1)%nat /\
  forall j, (j < List.length edges - 1)%nat ->
    (forall i n, nodes_in tx (nth j edges 0) (nth (j + 1) edges 0) i n -> nth j t 0 = trapezoids tx ty i n) /\
    ((forall k, (k < List.length tx)%nat -> ~ (nth j edges 0 <= nth k tx 0 < nth (j + 1) edges 0)) -> nth j t 0 = 0).
Proof.
  intro H. unfold theory_point in H. destruct (Nat.eqb_spec (List.length tx) (List.length ty)) as [L|L]; [|discriminate]. cbn [negb] in H. cbn -[filter combine seq map] in H. injection H as <-.
  split; [exact L|]. split; [now rewrite map_length, seq_length|]. intros j Hj. rewrite (nth_map_lt _ _ 0%nat) by (rewrite seq_length; exact Hj). rewrite seq_nth by exact Hj. cbn [Nat.add]. split.
  - intros i n N. rewrite (inside_seg _ _ _ _ i n L N). apply trapz_seg.
  - intro E. rewrite filter_none; [reflexivity|]. intros p I. destruct (inside _ _ (fst p)) eqn:Q; [|reflexivity]. exfalso. rewrite combine_seq in I by exact L.
    apply in_map_iff in I as (k & <- & K). apply in_seq in K. apply (E k); [lia|]. now apply inside_iff.
Qed.
Lemma point_integrate_run tx ty dx edges : List.length tx = List.length ty -> exists t, theory_point "integrate" tx ty dx edges = Ok t.
Proof. intro L. unfold theory_point. rewrite L, Nat.eqb_refl. eexists. reflexivity. Qed.
