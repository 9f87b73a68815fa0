(** The likelihood of mini_2pt_like.py: interpolated and integrated theory points. *)
From Coq Require Import ZArith.
From Verif Require Import Base Spec BaseFacts Interp InterpFacts QuadFacts FftModel PipeModel OptModel TpModel TpSpec TpFacts TpFacts6 ChainModel ChainFacts
  PredSpec PredFacts2 MiniModel MiniSpec MiniFacts MiniFacts2.
From Coq Require Import List.
Open Scope R_scope.

Lemma scales_pos x i : scales x -> (i < List.length x)%nat -> 0 < nth i x 0.
Proof.
  intros [Rx P] Hi. destruct i as [|i]; [exact P|]. pose proof (rising_incr x Rx) as I. pose proof (incr_lt _ _ 0 (S i) I ltac:(lia) Hi) as H. unfold at_ in H. lra.
Qed.
Lemma scales_ln x : scales x -> incr (List.length x) (fun i => ln (at_ x i)).
Proof.
  intros S i Hi. pose proof (scales_pos x i S ltac:(lia)). pose proof (rising_incr x (proj1 S) i Hi). apply ln_increasing; assumption.
Qed.
Lemma ln_le_inv a b : 0 < a -> 0 < b -> ln a <= ln b -> a <= b.
Proof. intros A B H. destruct (Rle_lt_dec a b) as [E|E]; [exact E|]. pose proof (ln_increasing b a B E). lra. Qed.
Lemma ln_le a b : 0 < a -> a <= b -> ln a <= ln b.
Proof. intros A H. destruct H as [H| ->]; [left; now apply ln_increasing|apply Rle_refl]. Qed.

(** ** interpolate *)
Lemma strict_chord x y q v : scales x -> 0 < q -> interp1d_strict (List.length x) (fun i => ln (at_ x i)) (at_ y) (ln q) = Ok v <->
  log_chord x y q v.
Proof.
  intros S Q. pose proof (scales_ln x S) as I. destruct S as [[N Rx] P]. assert (S : scales x) by (split; [split|]; assumption).
  assert (E : forall j, (Datatypes.S j < List.length x)%nat -> nth j x 0 <= q <= nth (Datatypes.S j) x 0 ->
     interp_lin (List.length x) (fun i => ln (at_ x i)) (at_ y) (ln q) =
     nth j y 0 + (nth (Datatypes.S j) y 0 - nth j y 0) * ((ln q - ln (nth j x 0)) / (ln (nth (Datatypes.S j) x 0) - ln (nth j x 0)))).
  { intros j Hj [A B]. pose proof (scales_pos x j S ltac:(lia)). rewrite (interp_seg _ _ _ _ j); [|lia|exact I|exact Hj|unfold at_; apply ln_le; lra|unfold at_; apply ln_le; lra].
    pose proof (I j Hj) as D. cbn beta in D. unfold at_ in *. field. lra. }
  split.
  - unfold interp1d_strict. destruct (Rlt_dec (ln q) (ln (at_ x 0))) as [A|A]; [discriminate|]. destruct (Rlt_dec (ln (at_ x (List.length x - 1))) (ln q)) as [B|B]; [discriminate|].
    intro H. injection H as H.
    assert (A' : nth 0 x 0 <= q) by (apply ln_le_inv; [exact P|exact Q|unfold at_ in A; lra]).
    assert (B' : q <= nth (List.length x - 1) x 0) by (apply ln_le_inv; [exact Q|apply scales_pos; [exact S|lia]|unfold at_ in B; lra]).
    assert (J : exists j, (Datatypes.S j < List.length x)%nat /\ nth j x 0 <= q <= nth (Datatypes.S j) x 0).
    { destruct (bracket (List.length x) (at_ x) q (rising_incr x (proj1 S)) ltac:(lia)) as [G|[G|[j [Hj [Ga Gb]]]]].
      - exists 0%nat. split; [lia|]. pose proof (Rx 0%nat ltac:(lia)). unfold at_ in *. lra.
      - unfold at_ in *. lra.
      - exists j. unfold at_ in *. split; [exact Hj|lra]. }
    destruct J as (j & Hj & Hq). exists j. split; [exact Hj|]. split; [exact Hq|]. rewrite <- H. now apply E.
  - intros (j & Hj & Hq & ->). unfold interp1d_strict.
    pose proof (incr_le _ _ 0 j (rising_incr x (proj1 S)) ltac:(lia) ltac:(lia)) as A. pose proof (incr_le _ _ (Datatypes.S j) (List.length x - 1) (rising_incr x (proj1 S)) ltac:(lia) ltac:(lia)) as B.
    unfold at_ in A, B. destruct (Rlt_dec (ln q) _) as [C|C]; [exfalso; pose proof (ln_le (nth 0 x 0) q P ltac:(lra)); unfold at_ in C; lra|].
    destruct (Rlt_dec _ (ln q)) as [D|D]; [exfalso; pose proof (ln_le q (nth (List.length x - 1) x 0) Q ltac:(lra)); unfold at_ in D; lra|].
    f_equal. now apply E.
Qed.
Lemma strict_outside x y q : scales x -> 0 < q -> q < nth 0 x 0 \/ nth (List.length x - 1) x 0 < q ->
  interp1d_strict (List.length x) (fun i => ln (at_ x i)) (at_ y) (ln q) = Err "ValueError".
Proof.
  intros S Q [H|H]; unfold interp1d_strict.
  - destruct (Rlt_dec (ln q) _) as [C|C]; [reflexivity|]. exfalso. apply C. apply ln_increasing; assumption.
  - destruct (Rlt_dec (ln q) _) as [C|C]; [reflexivity|]. destruct (Rlt_dec _ (ln q)) as [D|D]; [reflexivity|]. exfalso. apply D. apply ln_increasing; [|exact H].
    pose proof (proj1 (proj1 S)). apply scales_pos; [exact S|lia].
Qed.
Lemma point_interpolate tx ty dx edges t : scales tx -> (forall q, In q dx -> 0 < q) -> theory_point "interpolate" tx ty dx edges = Ok t ->
  List.length tx = List.length ty /\ List.length t = List.length dx /\ forall p, (p < List.length dx)%nat -> log_chord tx ty (nth p dx 0) (nth p t 0).
Proof.
  intros S Q H. unfold theory_point in H. destruct (Nat.eqb_spec (List.length tx) (List.length ty)) as [L|L]; [|discriminate]. cbn [negb] in H. cbn -[mapr interp1d_strict] in H.
  split; [exact L|]. apply mapr_ok in H. split; [symmetry; apply (forall2_len _ _ _ H)|].
  assert (G : forall l l', Forall2 (fun q v => interp1d_strict (List.length tx) (fun i => ln (at_ tx i)) (at_ ty) (ln q) = Ok v) l l' -> (forall q, In q l -> 0 < q) ->
     forall p, (p < List.length l)%nat -> log_chord tx ty (nth p l 0) (nth p l' 0)).
  { induction 1 as [|q v l l' E F IH]; intros A p Hp; cbn in Hp; [lia|]. destruct p as [|p]; [apply strict_chord; [exact S|apply A; now left|exact E]|].
    apply IH; [intros z I; apply A; now right|lia]. }
  now apply G.
Qed.
Lemma point_interpolate_run tx ty dx edges : scales tx -> List.length tx = List.length ty ->
  (forall q, In q dx -> nth 0 tx 0 <= q <= nth (List.length tx - 1) tx 0) -> exists t, theory_point "interpolate" tx ty dx edges = Ok t.
Proof.
  intros S L Q. unfold theory_point. rewrite L, Nat.eqb_refl. cbn [negb]. cbn -[mapr interp1d_strict]. apply mapr_total. intros q I. destruct (Q q I) as [A B].
  assert (P : 0 < q) by (pose proof (proj2 S); lra). unfold interp1d_strict. rewrite <- L.
  destruct (Rlt_dec (ln q) _) as [C|C]; [exfalso; pose proof (ln_le (nth 0 tx 0) q (proj2 S) A); unfold at_ in C; lra|].
  destruct (Rlt_dec _ (ln q)) as [D|D]; [exfalso; pose proof (ln_le q (nth (List.length tx - 1) tx 0) P B); unfold at_ in D; lra|]. eexists. reflexivity.
Qed.
Lemma mapr_fails {A B} (g : A -> res B) e : forall l x, In x l -> g x = Err e -> (forall y, In y l -> (exists v, g y = Ok v) \/ g y = Err e) -> mapr g l = Err e.
Proof.
  induction l as [|y l IH]; intros x I E G; [destruct I|]. cbn. destruct (g y) as [v|e'] eqn:Y; cbn.
  - destruct I as [<-|I]; [congruence|]. rewrite (IH x I E); [reflexivity|]. intros z J. apply G. now right.
  - destruct (G y (or_introl eq_refl)) as [(v & V)|V]; congruence.
Qed.
Lemma point_outside tx ty dx edges : scales tx -> (forall q, In q dx -> 0 < q) ->
  (exists q, In q dx /\ (q < nth 0 tx 0 \/ nth (List.length tx - 1) tx 0 < q)) -> theory_point "interpolate" tx ty dx edges = Err "ValueError".
Proof.
  intros S P (q & I & O). unfold theory_point. destruct (Nat.eqb _ _); [|reflexivity]. cbn [negb]. cbn -[mapr interp1d_strict].
  apply (mapr_fails _ _ _ q I); [apply strict_outside; [exact S|now apply P|exact O]|]. intros y _. unfold interp1d_strict.
  destruct (Rlt_dec _ _); [now right|]. destruct (Rlt_dec _ _); [now right|]. left. eexists. reflexivity.
Qed.

(** A table that is straight in ln x is reproduced. *)
Lemma chord_affine x y q v a b : scales x -> (forall i, (i < List.length x)%nat -> nth i y 0 = a * ln (nth i x 0) + b) -> log_chord x y q v -> v = a * ln q + b.
Proof.
  intros S A (j & Hj & _ & ->). rewrite !A by lia. pose proof (scales_ln x S j Hj) as D. unfold at_ in D. field. lra.
Qed.
Lemma chord_node x y i v : scales x -> (i < List.length x)%nat -> log_chord x y (nth i x 0) v -> v = nth i y 0.
Proof.
  intros S Hi (j & Hj & [A B] & ->). pose proof (scales_ln x S j Hj) as D. unfold at_ in D.
  assert (I := rising_incr x (proj1 S)).
  assert (C : i = j \/ i = Datatypes.S j).
  { destruct (Nat.lt_trichotomy i j) as [E|[E|E]]; [exfalso; pose proof (incr_lt _ _ i j I E ltac:(lia)) as F; unfold at_ in F; lra|now left|].
    right. destruct (Nat.eq_dec i (Datatypes.S j)) as [F|F]; [exact F|]. exfalso. pose proof (incr_lt _ _ (Datatypes.S j) i I ltac:(lia) Hi) as G. unfold at_ in G. lra. }
  destruct C as [-> | ->]; field; lra.
Qed.
Lemma chord_bounds x y q v : log_chord x y q v -> scales x -> exists j, (Datatypes.S j < List.length x)%nat /\ Rmin (nth j y 0) (nth (Datatypes.S j) y 0) <= v <= Rmax (nth j y 0) (nth (Datatypes.S j) y 0).
Proof.
  intros (j & Hj & [A B] & ->) S. exists j. split; [exact Hj|]. pose proof (scales_pos x j S ltac:(lia)) as P. pose proof (scales_ln x S j Hj) as D. unfold at_ in D.
  set (w := (ln q - ln (nth j x 0)) / (ln (nth (Datatypes.S j) x 0) - ln (nth j x 0))).
  assert (W : 0 <= w <= 1).
  { pose proof (ln_le (nth j x 0) q P A). pose proof (ln_le q (nth (Datatypes.S j) x 0) ltac:(lra) B). unfold w. split.
    - apply Rmult_le_pos; [lra|]. left. apply Rinv_0_lt_compat. lra.
    - apply (Rmult_le_reg_r (ln (nth (Datatypes.S j) x 0) - ln (nth j x 0))); [lra|]. unfold Rdiv. rewrite Rmult_assoc, Rinv_l by lra. lra. }
  set (u := nth j y 0). set (v := nth (Datatypes.S j) y 0). unfold Rmin, Rmax. destruct (Rle_dec u v); nra.
Qed.
