(** Lemmas about luminosity averages: the weights of Simpson's rule. *)
From Coq Require Import Lia Lra Arith.
From Verif Require Import Base Quad QuadFacts Interp IaModel IaFacts2 FftFacts4 LumSpec.
Open Scope R_scope.

Definition u (i : nat) : R := if Nat.eqb i 0 then 1 / 3 else if Nat.even i then 2 / 3 else 4 / 3.
Definition spaced (n : nat) (h : R) (x : nat -> R) : Prop := forall i, (S i < n)%nat -> x (S i) - x i = h.

Lemma even2 p : Nat.even (2 * p) = true.
Proof. apply Nat.even_spec. now exists p. Qed.
Lemma odd2 p : Nat.even (2 * p + 1) = false.
Proof. rewrite Nat.even_add, even2. reflexivity. Qed.

Lemma basic_weights p h x y : h <> 0 -> spaced (2 * p + 3) h x ->
  basic_simpson (S p) y x = h * (sumR (2 * p + 2) (fun i => u i * y i) + 1 / 3 * y (2 * p + 2)%nat).
Proof.
  intros Hh. unfold basic_simpson. induction p as [|p IH]; intros U.
  - cbn [sumR Nat.mul Nat.add]. unfold simpson_triple. pose proof (U 0%nat ltac:(lia)) as A. pose proof (U 1%nat ltac:(lia)) as B. rewrite A, B.
    unfold u. cbn. field. exact Hh.
  - cbn [sumR]. cbn [sumR] in IH. rewrite IH; [|intros i Hi; apply U; lia].
    replace (2 * S p + 2)%nat with (S (S (2 * p + 2))) by lia. cbn [sumR].
    replace (2 * S p)%nat with (2 * p + 2)%nat by lia. replace (2 * p + 2 + 1)%nat with (S (2 * p + 2)) by lia. replace (2 * p + 2 + 2)%nat with (S (S (2 * p + 2))) by lia.
    unfold simpson_triple. rewrite (U (2 * p + 2)%nat), (U (S (2 * p + 2))) by lia.
    assert (E1 : u (2 * p + 2) = 2 / 3). { unfold u. replace (2 * p + 2)%nat with (2 * (p + 1))%nat by lia. rewrite even2. destruct (Nat.eqb_spec (2 * (p + 1)) 0); [lia|reflexivity]. }
    assert (E2 : u (S (2 * p + 2)) = 4 / 3). { unfold u. replace (S (2 * p + 2)) with (2 * (p + 1) + 1)%nat by lia. rewrite odd2. destruct (Nat.eqb_spec (2 * (p + 1) + 1) 0); [lia|reflexivity]. }
    rewrite E1, E2. field. exact Hh.
Qed.
Lemma weights n h x y : (3 <= n)%nat -> h <> 0 -> spaced n h x -> simpson n y x = h * sumR n (fun i => simpson_weight n i * y i).
Proof.
  intros Hn Hh U. unfold simpson. destruct (Nat.even n) eqn:E.
  - destruct (Nat.eqb_spec n 2); [lia|]. apply Nat.even_spec in E. destruct E as [q ->]. destruct q as [|[|p]]; [lia|lia|].
    replace ((2 * S (S p) - 2) / 2)%nat with (S p) by (replace (2 * S (S p) - 2)%nat with (S p * 2)%nat by lia; now rewrite Nat.div_mul by lia).
    rewrite (basic_weights p h); [|exact Hh|intros i Hi; apply U; lia].
    replace (2 * S (S p) - 3)%nat with (2 * p + 1)%nat by lia. replace (2 * S (S p) - 2)%nat with (2 * p + 2)%nat by lia. replace (2 * S (S p) - 1)%nat with (2 * p + 3)%nat by lia.
    unfold simpson_last. replace (2 * p + 2)%nat with (S (2 * p + 1)) by lia. replace (2 * p + 3)%nat with (S (S (2 * p + 1))) by lia. rewrite !U by lia.
    replace (2 * S (S p))%nat with (S (S (S (2 * p + 1)))) by lia. cbn [sumR].
    assert (W : forall i, (i < 2 * p + 1)%nat -> simpson_weight (S (S (S (2 * p + 1)))) i = u i).
    { intros i Hi. unfold simpson_weight, u. destruct (Nat.eqb_spec i 0); [reflexivity|].
      replace (Nat.even (S (S (S (2 * p + 1))))) with true by (replace (S (S (S (2 * p + 1)))) with (2 * (p + 2))%nat by lia; now rewrite even2).
      destruct (Nat.eqb_spec i (S (S (S (2 * p + 1))) - 1)); [lia|]. destruct (Nat.eqb_spec i (S (S (S (2 * p + 1))) - 2)); [lia|]. destruct (Nat.eqb_spec i (S (S (S (2 * p + 1))) - 3)); [lia|]. reflexivity. }
    rewrite (sumR_ext (2 * p + 1) (fun i => simpson_weight (S (S (S (2 * p + 1)))) i * y i) (fun i => u i * y i)) by (intros i Hi; now rewrite W).
    unfold simpson_weight. replace (Nat.even (S (S (S (2 * p + 1))))) with true by (replace (S (S (S (2 * p + 1)))) with (2 * (p + 2))%nat by lia; now rewrite even2).
    destruct (Nat.eqb_spec (2 * p + 1) 0); [lia|]. destruct (Nat.eqb_spec (S (2 * p + 1)) 0); [lia|]. destruct (Nat.eqb_spec (S (S (2 * p + 1))) 0); [lia|].
    destruct (Nat.eqb_spec (S (S (2 * p + 1))) (S (S (S (2 * p + 1))) - 1)); [|lia].
    destruct (Nat.eqb_spec (S (2 * p + 1)) (S (S (S (2 * p + 1))) - 1)); [lia|]. destruct (Nat.eqb_spec (S (2 * p + 1)) (S (S (S (2 * p + 1))) - 2)); [|lia].
    destruct (Nat.eqb_spec (2 * p + 1) (S (S (S (2 * p + 1))) - 1)); [lia|]. destruct (Nat.eqb_spec (2 * p + 1) (S (S (S (2 * p + 1))) - 2)); [lia|].
    destruct (Nat.eqb_spec (2 * p + 1) (S (S (S (2 * p + 1))) - 3)); [|lia].
    assert (U1 : u (2 * p + 1) = 4 / 3). { unfold u. rewrite odd2. destruct (Nat.eqb_spec (2 * p + 1) 0); [lia|reflexivity]. }
    rewrite U1. field. split; lra.
  - assert (O : Nat.odd n = true) by (unfold Nat.odd; now rewrite E). apply Nat.odd_spec in O. destruct O as [q ->]. destruct q as [|p]; [lia|].
    replace ((2 * S p + 1 - 1) / 2)%nat with (S p) by (replace (2 * S p + 1 - 1)%nat with (S p * 2)%nat by lia; now rewrite Nat.div_mul by lia).
    rewrite (basic_weights p h); [|exact Hh|intros i Hi; apply U; lia]. replace (2 * S p + 1)%nat with (S (2 * p + 2)) by lia. cbn [sumR].
    assert (Z : Nat.even (S (2 * p + 2)) = false) by (replace (S (2 * p + 2)) with (2 * (p + 1) + 1)%nat by lia; now rewrite odd2).
    rewrite (sumR_ext (2 * p + 2) (fun i => simpson_weight (S (2 * p + 2)) i * y i) (fun i => u i * y i)).
    2:{ intros i Hi. unfold simpson_weight, u. rewrite Z. destruct (Nat.eqb_spec i 0); [reflexivity|]. destruct (Nat.eqb_spec i (S (2 * p + 2) - 1)); [lia|reflexivity]. }
    unfold simpson_weight. rewrite Z. destruct (Nat.eqb_spec (2 * p + 2) 0); [lia|]. destruct (Nat.eqb_spec (2 * p + 2) (S (2 * p + 2) - 1)); [|lia]. ring.
Qed.
Lemma weight_bounds n i : 1 / 3 <= simpson_weight n i <= 4 / 3.
Proof. unfold simpson_weight. repeat match goal with |- context [if ?b then _ else _] => destruct b end; lra. Qed.

(** ** Sums over bins as sums over the sample *)
Definition indic (b : bool) : R := if b then 1 else 0.
Lemma count_sum (p : R -> bool) l : INR (count_if p l) = fold_right (fun t s => indic (p t) + s) 0 l.
Proof.
  unfold count_if. induction l as [|t l IH]; cbn; [reflexivity|]. destruct (p t); unfold indic at 1.
  - change (List.length (t :: filter p l)) with (S (List.length (filter p l))). rewrite S_INR, IH. lra.
  - rewrite IH. lra.
Qed.
Lemma swap_sum n (F : nat -> R) (p : nat -> R -> bool) (bin : R -> nat) l :
  (forall t, In t l -> (bin t < n)%nat /\ p (bin t) t = true /\ forall j, (j < n)%nat -> p j t = true -> j = bin t) ->
  sumR n (fun j => F j * INR (count_if (p j) l)) = fold_right (fun t s => F (bin t) + s) 0 l.
Proof.
  induction l as [|t l IH]; intros H.
  - cbn [fold_right]. rewrite (sumR_ext n _ (fun _ => 0)); [apply sumR_zero|]. intros j Hj. rewrite count_sum. cbn [fold_right]. ring.
  - cbn [fold_right]. rewrite <- IH by (intros t' Ht'; apply H; now right).
    destruct (H t (or_introl eq_refl)) as (B & P & U).
    rewrite (sumR_ext n _ (fun j => F j * indic (p j t) + F j * INR (count_if (p j) l))).
    2:{ intros j Hj. rewrite !count_sum. cbn [fold_right]. ring. }
    rewrite sumR_plus. f_equal. rewrite (sumR_one n _ (bin t) B); [rewrite P; unfold indic; ring|].
    intros j Hj Hne. destruct (p j t) eqn:E; [|unfold indic; ring]. exfalso. apply Hne. now apply U.
Qed.
Lemma fold_scale c (f : R -> R) l : fold_right (fun t s => c * f t + s) 0 l = c * fold_right (fun t s => f t + s) 0 l.
Proof. induction l as [|t l IH]; cbn; [ring|]. rewrite IH. ring. Qed.
Lemma fold_div c (f : R -> R) l : fold_right (fun t s => f t / c + s) 0 l = fold_right (fun t s => f t + s) 0 l / c.
Proof. induction l as [|t l IH]; cbn; [unfold Rdiv; ring|]. rewrite IH. unfold Rdiv. ring. Qed.
Lemma average_scale c f l : average (fun t => c * f t) l = c * average f l.
Proof. unfold average. rewrite fold_scale. unfold Rdiv. ring. Qed.
Lemma average_ext f g l : (forall t, In t l -> f t = g t) -> average f l = average g l.
Proof.
  intros H. unfold average. f_equal. induction l as [|t l IH]; cbn; [reflexivity|]. rewrite H by now left. rewrite IH; [reflexivity|]. intros t' Ht'. apply H. now right.
Qed.
Lemma average_le f g l : (forall t, In t l -> f t <= g t) -> l <> [] -> average f l <= average g l.
Proof.
  intros H N. unfold average. apply Rmult_le_compat_r.
  - apply Rlt_le, Rinv_0_lt_compat, lt_0_INR. destruct l; [congruence|cbn; lia].
  - clear N. induction l as [|t l IH]; cbn; [lra|]. apply Rplus_le_compat; [apply H; now left|]. apply IH. intros t' Ht'. apply H. now right.
Qed.

(** ** The histogram of a redshift bin *)
Definition bin_of (n : nat) (x : R) (l : list R) (t : R) : nat :=
  match filter (fun j => in_bin n (hist_edge n x (x :: l)) j t) (seq 0 n) with j :: _ => j | [] => O end.
Lemma bin_of_spec n x l t : (1 <= n)%nat -> In t (x :: l) ->
  (bin_of n x l t < n)%nat /\ in_bin n (hist_edge n x (x :: l)) (bin_of n x l t) t = true /\
  forall j, (j < n)%nat -> in_bin n (hist_edge n x (x :: l)) j t = true -> j = bin_of n x l t.
Proof.
  intros Hn Ht. destruct (hist_one n x l t Hn Ht) as (i & Hi & Bi & U). unfold bin_of.
  destruct (filter _ _) as [|j r] eqn:E.
  - exfalso. assert (In i []) as []. rewrite <- E. apply filter_In. split; [apply in_seq; lia|exact Bi].
  - assert (J : In j (j :: r)) by now left. rewrite <- E in J. apply filter_In in J. destruct J as [J1 J2]. apply in_seq in J1.
    rewrite (U j ltac:(lia) J2). split; [exact Hi|]. split; [exact Bi|exact U].
Qed.
Lemma list_max_in d l : list_max d l = d \/ In (list_max d l) l.
Proof.
  unfold list_max. revert d. induction l as [|a l IH]; intro d; simpl; [now left|].
  destruct (IH (Rmax d a)) as [E|E]; [|now right; right]. rewrite E.
  unfold Rmax. destruct (Rle_dec d a); [right; now left|now left].
Qed.
Lemma range_spans x l : spans (fst (hist_range x (x :: l))) (snd (hist_range x (x :: l))) (x :: l).
Proof.
  unfold hist_range. destruct (list_min_le x (x :: l)) as [A B]. destruct (list_max_ge x (x :: l)) as [C D].
  destruct (Req_EM_T _ _) as [E|E]; cbn [fst snd].
  - right. exists (list_min x (x :: l)). split; [|split; [reflexivity|now rewrite E]].
    intros t Ht. pose proof (B t Ht). pose proof (D t Ht). lra.
  - left. split; [destruct (list_min_in x (x :: l)) as [->|I]; [now left|exact I]|].
    split; [destruct (list_max_in x (x :: l)) as [->|I]; [now left|exact I]|]. split; [lra|]. intros t Ht. split; [now apply B|now apply D].
Qed.
Lemma bin_binned n x l : (1 <= n)%nat -> binned n (fst (hist_range x (x :: l))) (snd (hist_range x (x :: l))) (x :: l) (bin_of n x l).
Proof.
  intros Hn t Ht. destruct (bin_of_spec n x l t Hn Ht) as (B & I & _). split; [exact B|].
  pose proof (hist_width_pos n x l Hn) as W.
  apply in_bin_iff in I; [|intros j Hj; replace (S j) with (j + 1)%nat by lia; rewrite edge_step by lia; lra|exact B].
  rewrite !edge_at in I by lia. rewrite S_INR in I. destruct I as [[I1 I2]|[I1 I2]].
  - split; [exact I1|]. now left.
  - assert (N : INR n <> 0) by (apply not_0_INR; lia). assert (X : t = snd (hist_range x (x :: l))). { rewrite I2. field. exact N. }
    split; [|right; split; [lia|exact X]]. assert (Y : INR (bin_of n x l t) = INR n - 1). { pose proof (f_equal INR I1) as J. rewrite S_INR in J. lra. }
    rewrite Y. fold (hist_width n x (x :: l)). assert (Q : INR n * hist_width n x (x :: l) = snd (hist_range x (x :: l)) - fst (hist_range x (x :: l))).
    { unfold hist_width. field. exact N. }
    lra.
Qed.
Lemma table_average nz z nl gal i x l (g : R -> R) : (3 <= nl)%nat -> lum_in_bin nz z gal i = x :: l ->
  simpson nl (fun j => snd (lum_table nz z nl gal) i j * g (fst (lum_table nz z nl gal) i j)) (fst (lum_table nz z nl gal) i) =
  average (fun t => simpson_weight nl (bin_of nl x l t) * g (middle nl (fst (hist_range x (x :: l))) (snd (hist_range x (x :: l))) (bin_of nl x l t))) (x :: l).
Proof.
  intros Hn E. pose proof (hist_width_pos nl x l ltac:(lia)) as W.
  rewrite (weights nl (hist_width nl x (x :: l))); [|exact Hn|lra|].
  2:{ intros j Hj. rewrite (lum_uniform nz z nl gal i x l ltac:(lia) E j Hj). ring. }
  assert (L : INR (List.length (x :: l)) <> 0) by (apply not_0_INR; discriminate).
  rewrite <- sumR_scal.
  rewrite (sumR_ext nl _ (fun j => (simpson_weight nl j * g (middle nl (fst (hist_range x (x :: l))) (snd (hist_range x (x :: l))) j) / INR (List.length (x :: l)))
                                    * INR (count_if (in_bin nl (hist_edge nl x (x :: l)) j) (x :: l)))).
  2:{ intros j Hj. destruct (lum_table_centre nz z nl gal i j x l ltac:(lia) Hj E) as [C _]. rewrite C.
      unfold lum_table. cbn [snd]. rewrite E. unfold hist_pdf. rewrite hist_total by lia. rewrite edge_step by lia. unfold hist_count.
      replace (hist_edge nl x (x :: l) j + hist_width nl x (x :: l) / 2) with (middle nl (fst (hist_range x (x :: l))) (snd (hist_range x (x :: l))) j).
      2:{ unfold middle. rewrite edge_at by lia. unfold hist_width. field. apply not_0_INR. lia. }
      replace (hist_edge nl x (x :: l) j + hist_width nl x (x :: l) - hist_edge nl x (x :: l) j) with (hist_width nl x (x :: l)) by ring.
      field. split; [exact L|lra]. }
  rewrite (swap_sum nl _ (in_bin nl (hist_edge nl x (x :: l))) (bin_of nl x l)); [|intros t Ht; apply bin_of_spec; [lia|exact Ht]].
  unfold average. exact (fold_div (INR (List.length (x :: l))) _ (x :: l)).
Qed.
