(** Proofs about ia.py: histograms, luminosity means, amplitudes, upsampling. *)
From Coq Require Import ZArith.
From Coquelicot Require Import Coquelicot.
From Verif Require Import Base Quad Interp Spec BaseFacts QuadFacts InterpFacts NumFacts IaModel IaSpec IaFacts.
Open Scope R_scope.

(** ** Simpson on a uniform grid *)
Definition uniform (n : nat) (h : R) (x : nat -> R) : Prop := forall i, (S i < n)%nat -> x (S i) = x i + h.

Lemma simpson_uniform n h x y : (1 <= n)%nat -> 0 < h -> uniform n h x ->
  (forall i, (i < n)%nat -> 0 <= y i) -> 0 <= simpson n y x.
Proof.
  intros Hn Hh U Hy.
  assert (T : forall t y0 y1 y2, simpson_triple t (t + h) (t + h + h) y0 y1 y2 = h / 3 * (y0 + 4 * y1 + y2)).
  { intros. unfold simpson_triple. field. repeat split; try lra; ring_simplify; lra. }
  assert (Htrip : forall j, (2 * j + 2 < n)%nat ->
      0 <= simpson_triple (x (2*j)%nat) (x (2*j+1)%nat) (x (2*j+2)%nat)
                          (y (2*j)%nat) (y (2*j+1)%nat) (y (2*j+2)%nat)).
  { intros j Hj.
    pose proof (Hy (2*j)%nat ltac:(lia)). pose proof (Hy (2*j+1)%nat ltac:(lia)). pose proof (Hy (2*j+2)%nat ltac:(lia)).
    replace (x (2*j+2)%nat) with (x (2*j)%nat + h + h).
    2:{ replace (2*j+2)%nat with (S (S (2*j))) by lia. rewrite !U by lia. reflexivity. }
    replace (x (2*j+1)%nat) with (x (2*j)%nat + h).
    2:{ replace (2*j+1)%nat with (S (2*j)) by lia. rewrite !U by lia. reflexivity. }
    rewrite T. apply Rmult_le_pos; lra. }
  unfold simpson. destruct (Nat.even n) eqn:He; [destruct (Nat.eqb n 2) eqn:H2|].
  - apply Nat.eqb_eq in H2; subst n. rewrite (U 0%nat) by lia.
    pose proof (Hy 0%nat ltac:(lia)). pose proof (Hy 1%nat ltac:(lia)).
    apply Rmult_le_pos; lra.
  - apply Nat.eqb_neq in H2.
    assert (Hn2 : (2 <= n)%nat) by (destruct n as [|[|n]]; [lia|discriminate|lia]).
    pose proof (half_even n He Hn2) as Hf.
    destruct ((n - 2) / 2)%nat as [|p] eqn:Hp; [lia|].
    unfold basic_simpson. cbn [sumR]. rewrite Rplus_assoc. apply Rplus_le_le_0_compat.
    + apply sumR_nonneg; intros j Hj. apply Htrip; lia.
    + replace (n - 3)%nat with (2 * p + 1)%nat by lia.
      replace (n - 2)%nat with (2 * p + 2)%nat by lia.
      replace (n - 1)%nat with (2 * p + 3)%nat by lia.
      replace (x (2*p+3)%nat) with (x (2*p)%nat + h + h + h).
      2:{ replace (2*p+3)%nat with (S (S (S (2*p)))) by lia. rewrite !U by lia. reflexivity. }
      replace (x (2*p+2)%nat) with (x (2*p)%nat + h + h).
      2:{ replace (2*p+2)%nat with (S (S (2*p))) by lia. rewrite !U by lia. reflexivity. }
      replace (x (2*p+1)%nat) with (x (2*p)%nat + h).
      2:{ replace (2*p+1)%nat with (S (2*p)) by lia. rewrite !U by lia. reflexivity. }
      rewrite T.
      assert (E : simpson_last (x (2*p)%nat + h) (x (2*p)%nat + h + h) (x (2*p)%nat + h + h + h)
        (y (2*p+1)%nat) (y (2*p+2)%nat) (y (2*p+3)%nat)
        = h * (5 / 12 * y (2*p+3)%nat + 2 / 3 * y (2*p+2)%nat - 1 / 12 * y (2*p+1)%nat)).
      { unfold simpson_last. field. repeat split; try lra; ring_simplify; lra. }
      rewrite E.
      pose proof (Hy (2*p)%nat ltac:(lia)). pose proof (Hy (2*p+1)%nat ltac:(lia)).
      pose proof (Hy (2*p+2)%nat ltac:(lia)). pose proof (Hy (2*p+3)%nat ltac:(lia)).
      match goal with |- 0 <= ?a => replace a with (h * (1/3 * y (2*p)%nat + (4/3 - 1/12) * y (2*p+1)%nat
         + y (2*p+2)%nat + 5/12 * y (2*p+3)%nat)) by field end.
      apply Rmult_le_pos; lra.
  - pose proof (half_odd n He) as Hf. unfold basic_simpson. apply sumR_nonneg; intros j Hj. apply Htrip; lia.
Qed.

(** ** Histogram *)
Lemma list_min_le d l : list_min d l <= d /\ forall x, In x l -> list_min d l <= x.
Proof.
  unfold list_min. revert d. induction l as [|a l IH]; intro d; simpl; [split; [lra|tauto]|].
  destruct (IH (Rmin d a)) as [I1 I2]. pose proof (Rmin_l d a). pose proof (Rmin_r d a).
  split; [lra|]. intros x [<-|Hx]; [lra|]. apply I2, Hx.
Qed.
Lemma list_max_ge d l : d <= list_max d l /\ forall x, In x l -> x <= list_max d l.
Proof.
  unfold list_max. revert d. induction l as [|a l IH]; intro d; simpl; [split; [lra|tauto]|].
  destruct (IH (Rmax d a)) as [I1 I2]. pose proof (Rmax_l d a). pose proof (Rmax_r d a).
  split; [lra|]. intros x [<-|Hx]; [lra|]. apply I2, Hx.
Qed.
Lemma hist_range_ok x l : fst (hist_range x (x :: l)) < snd (hist_range x (x :: l)) /\
  forall t, In t (x :: l) -> fst (hist_range x (x :: l)) <= t <= snd (hist_range x (x :: l)).
Proof.
  unfold hist_range. destruct (list_min_le x (x :: l)) as [A B], (list_max_ge x (x :: l)) as [C D].
  destruct (Req_EM_T _ _) as [E|E]; cbn [fst snd].
  - split; [lra|]. intros t Ht. specialize (B t Ht). specialize (D t Ht). lra.
  - split; [lra|]. intros t Ht. split; auto.
Qed.
Lemma edge_at n x l i : (1 <= n)%nat -> (i <= n)%nat ->
  hist_edge n x l i = fst (hist_range x l) + INR i * ((snd (hist_range x l) - fst (hist_range x l)) / INR n).
Proof.
  intros H Hi. unfold hist_edge. rewrite linspace_eq by lia. replace (n + 1 - 1)%nat with n by lia. reflexivity.
Qed.
Definition hist_width n x l : R := (snd (hist_range x l) - fst (hist_range x l)) / INR n.
Lemma hist_width_pos n x l : (1 <= n)%nat -> 0 < hist_width n x (x :: l).
Proof.
  intro H. unfold hist_width. destruct (hist_range_ok x l) as [A _]. apply Rdiv_lt_0_compat; [lra|]. apply lt_0_INR. lia.
Qed.
Lemma edge_step n x l i : (1 <= n)%nat -> (i < n)%nat -> hist_edge n x l (i + 1) = hist_edge n x l i + hist_width n x l.
Proof.
  intros H Hi. rewrite !edge_at by lia. rewrite plus_INR. simpl (INR 1). unfold hist_width. ring.
Qed.

(** Every value in the range of increasing edges is in exactly one bin. *)
Section Bins.
  Context (n : nat) (e : nat -> R) (He : forall i, (i < n)%nat -> e i < e (S i)).
  Lemma e_le i j : (i <= j <= n)%nat -> e i <= e j.
  Proof.
    intros [H1 H2]. induction j as [|j IH]; [replace i with 0%nat by lia; lra|].
    destruct (Nat.eq_dec i (S j)) as [->|N]; [lra|].
    pose proof (He j ltac:(lia)). pose proof (IH ltac:(lia) ltac:(lia)). lra.
  Qed.
  Lemma in_bin_iff i x : (i < n)%nat -> in_bin n e i x = true <->
    (e i <= x < e (S i) \/ (S i = n /\ x = e n)).
  Proof.
    intro Hi. unfold in_bin. replace (i + 1)%nat with (S i) by lia.
    destruct (Rle_dec (e i) x); [|split; [discriminate|]].
    - destruct (Rlt_dec x (e (S i))).
      + split; [intros _; left; split; assumption|reflexivity].
      + destruct (Nat.eqb_spec (S i) n) as [E|E].
        * destruct (Req_EM_T x (e n)); split; try discriminate; auto.
          intros [[_ Z]|[_ Z]]; [lra|contradiction].
        * split; [discriminate|]. intros [[_ Z]|[Z _]]; [lra|contradiction].
    - intros [[Z _]|[Z1 Z2]]; [lra|]. exfalso. pose proof (He i Hi). rewrite Z1 in *. lra.
  Qed.
  Lemma bin_exists x : (1 <= n)%nat -> e 0%nat <= x <= e n -> exists i, (i < n)%nat /\ in_bin n e i x = true.
  Proof.
    intros Hn [H1 H2].
    assert (S : forall m, (m <= n)%nat -> x < e m -> exists i, (i < m)%nat /\ e i <= x < e (S i)).
    { induction m as [|m IH]; intros Hm Hx; [lra|].
      destruct (Rlt_dec x (e m)) as [L|L].
      - destruct (IH ltac:(lia) L) as (i & Hi & B). exists i. split; [lia|exact B].
      - exists m. split; [lia|lra]. }
    destruct (Req_dec x (e n)) as [E|E].
    - exists (n - 1)%nat. split; [lia|]. apply in_bin_iff; [lia|]. right. split; [lia|exact E].
    - destruct (S n (le_n n) ltac:(lra)) as (i & Hi & B). exists i. split; [exact Hi|]. apply in_bin_iff; [exact Hi|]. now left.
  Qed.
  Lemma bin_unique x i j : (i < n)%nat -> (j < n)%nat -> in_bin n e i x = true -> in_bin n e j x = true -> i = j.
  Proof.
    intros Hi Hj A B. apply in_bin_iff in A; [|exact Hi]. apply in_bin_iff in B; [|exact Hj].
    assert (W : forall i j, (i < j < n)%nat -> (e i <= x < e (S i) \/ S i = n /\ x = e n) ->
      (e j <= x < e (S j) \/ S j = n /\ x = e n) -> False).
    { clear -He. intros i j H [A|A] B; [|lia].
      assert (e (S i) <= e j) by (apply e_le; lia).
      destruct B as [B|[B1 B2]]; [lra|]. pose proof (e_le j n ltac:(lia)). lra. }
    destruct (Nat.lt_trichotomy i j) as [H|[H|H]]; [exfalso|exact H|exfalso].
    - apply (W i j ltac:(lia)); assumption.
    - apply (W j i ltac:(lia)); assumption.
  Qed.
End Bins.

Definition b2n (b : bool) : nat := if b then 1%nat else 0%nat.
Lemma sumN_ext n f g : (forall i, (i < n)%nat -> f i = g i) -> sumN n f = sumN n g.
Proof. induction n as [|n IH]; intro H; simpl; [reflexivity|]. rewrite IH, H by (auto; lia). reflexivity. Qed.
Lemma sumN_plus n f g : sumN n (fun i => f i + g i)%nat = (sumN n f + sumN n g)%nat.
Proof. induction n as [|n IH]; simpl; [reflexivity|]. rewrite IH. lia. Qed.
Lemma sumN_zero n f : (forall i, (i < n)%nat -> f i = 0%nat) -> sumN n f = 0%nat.
Proof. induction n as [|n IH]; intro H; simpl; [reflexivity|]. rewrite IH, H by (auto; lia). reflexivity. Qed.
Lemma sumN_one n (p : nat -> bool) : (exists i, (i < n)%nat /\ p i = true) ->
  (forall i j, (i < n)%nat -> (j < n)%nat -> p i = true -> p j = true -> i = j) ->
  sumN n (fun i => b2n (p i)) = 1%nat.
Proof.
  induction n as [|n IH]; intros (i & Hi & Pi) U; [lia|]. simpl.
  destruct (Nat.eq_dec i n) as [->|N].
  - rewrite Pi. rewrite sumN_zero; [reflexivity|]. intros j Hj. destruct (p j) eqn:E; [|reflexivity].
    assert (j = n) by (apply U; [lia|lia|exact E|exact Pi]). lia.
  - rewrite IH.
    + destruct (p n) eqn:E; [|reflexivity]. exfalso. apply N. apply U; [lia|lia|exact Pi|exact E].
    + exists i. split; [lia|exact Pi].
    + intros a b Ha Hb. apply U; lia.
Qed.
Lemma count_total n (p : nat -> R -> bool) l :
  (forall x, In x l -> sumN n (fun i => b2n (p i x)) = 1%nat) ->
  sumN n (fun i => count_if (p i) l) = List.length l.
Proof.
  induction l as [|x l IH]; intro H.
  - apply sumN_zero. reflexivity.
  - rewrite (sumN_ext n _ (fun i => b2n (p i x) + count_if (p i) l)%nat).
    + rewrite sumN_plus, (H x (or_introl eq_refl)), IH; [reflexivity|]. intros t Ht. apply H. now right.
    + intros i _. unfold count_if. simpl. destruct (p i x); reflexivity.
Qed.
Lemma sumR_sumN n f : sumR n (fun i => INR (f i)) = INR (sumN n f).
Proof. induction n as [|n IH]; simpl; [reflexivity|]. rewrite IH, plus_INR. reflexivity. Qed.

Lemma hist_one n x l t : (1 <= n)%nat -> In t (x :: l) ->
  (exists i, (i < n)%nat /\ in_bin n (hist_edge n x (x :: l)) i t = true /\
     forall j, (j < n)%nat -> in_bin n (hist_edge n x (x :: l)) j t = true -> j = i).
Proof.
  intros Hn Ht.
  assert (He : forall i, (i < n)%nat -> hist_edge n x (x :: l) i < hist_edge n x (x :: l) (S i)).
  { intros i Hi. replace (S i) with (i + 1)%nat by lia. rewrite edge_step by lia. pose proof (hist_width_pos n x l Hn). lra. }
  destruct (hist_range_ok x l) as [A B].
  destruct (bin_exists n _ He t Hn) as (i & Hi & Bi).
  - rewrite !edge_at by lia. simpl (INR 0).
    replace (fst (hist_range x (x :: l)) + INR n * ((snd (hist_range x (x :: l)) - fst (hist_range x (x :: l))) / INR n))
      with (snd (hist_range x (x :: l))) by (field; apply not_0_INR; lia).
    rewrite Rmult_0_l, Rplus_0_r. apply B, Ht.
  - exists i. repeat split; auto. intros j Hj Bj. apply (bin_unique n _ He t); auto.
Qed.
Lemma hist_total n x l : (1 <= n)%nat -> sumN n (hist_count n x (x :: l)) = List.length (x :: l).
Proof.
  intro Hn. unfold hist_count. apply count_total. intros t Ht.
  destruct (hist_one n x l t Hn Ht) as (i & Hi & Bi & U). apply sumN_one; [exists i; auto|].
  intros a b Ha Hb A B. rewrite (U a), (U b); auto.
Qed.
Lemma hist_pdf_nonneg n x l i : (1 <= n)%nat -> (i < n)%nat -> 0 <= hist_pdf n x (x :: l) i.
Proof.
  intros Hn Hi. unfold hist_pdf. rewrite edge_step by lia. pose proof (hist_width_pos n x l Hn) as W.
  replace (hist_edge n x (x :: l) i + hist_width n x (x :: l) - hist_edge n x (x :: l) i) with (hist_width n x (x :: l)) by ring.
  rewrite hist_total by exact Hn.
  apply Rmult_le_pos; [apply Rmult_le_pos|]; try apply pos_INR; left; apply Rinv_0_lt_compat; [exact W|].
  apply lt_0_INR. simpl. lia.
Qed.
Lemma hist_pdf_unit n x l : (1 <= n)%nat ->
  sumR n (fun i => hist_pdf n x (x :: l) i * (hist_edge n x (x :: l) (i + 1) - hist_edge n x (x :: l) i)) = 1.
Proof.
  intro Hn. pose proof (hist_width_pos n x l Hn) as W.
  assert (P : 0 < INR (List.length (x :: l))) by (apply lt_0_INR; simpl; lia).
  rewrite (sumR_ext n _ (fun i => / INR (List.length (x :: l)) * INR (hist_count n x (x :: l) i))).
  - rewrite sumR_scal, sumR_sumN, hist_total by exact Hn. field. lra.
  - intros i Hi. unfold hist_pdf. rewrite edge_step by lia. rewrite hist_total by exact Hn. field. split; lra.
Qed.

(** ** Redshift bins *)
Lemma z_one nz z (g : R * R) : (2 <= nz)%nat -> incr nz z ->
  z 0%nat - 1 / 2 * (z 1%nat - z 0%nat) <= fst g < z (nz - 1)%nat + 1 / 2 * (z 1%nat - z 0%nat) ->
  exists i, (i < nz)%nat /\ in_zbin nz z i g = true /\ forall j, (j < nz)%nat -> in_zbin nz z j g = true -> j = i.
Proof.
  intros Hn Hz Hg.
  assert (D : 0 < z 1%nat - z 0%nat) by (pose proof (Hz 0%nat ltac:(lia)); lra).
  assert (He : forall i, (i < nz)%nat -> z_edge nz z i < z_edge nz z (S i)).
  { intros i Hi. unfold z_edge. destruct (Nat.ltb_spec i nz); [|lia]. destruct (Nat.ltb_spec (S i) nz).
    - pose proof (Hz i ltac:(lia)). lra.
    - replace (nz - 1)%nat with i by lia. lra. }
  assert (E0 : z_edge nz z 0 = z 0%nat - 1 / 2 * (z 1%nat - z 0%nat)).
  { unfold z_edge. destruct (Nat.ltb_spec 0 nz); [reflexivity|lia]. }
  assert (En : z_edge nz z nz = z (nz - 1)%nat + 1 / 2 * (z 1%nat - z 0%nat)).
  { unfold z_edge. rewrite Nat.ltb_irrefl. reflexivity. }
  assert (I : forall i, in_zbin nz z i g = true <-> z_edge nz z i <= fst g < z_edge nz z (S i)).
  { intro i. unfold in_zbin. replace (i + 1)%nat with (S i) by lia.
    destruct (Rle_dec (z_edge nz z i) (fst g)); [destruct (Rlt_dec (fst g) (z_edge nz z (S i)))|]; split; auto; try discriminate; lra. }
  assert (X : exists i, (i < nz)%nat /\ z_edge nz z i <= fst g < z_edge nz z (S i)).
  { assert (S : forall m, (m <= nz)%nat -> fst g < z_edge nz z m ->
      exists i, (i < m)%nat /\ z_edge nz z i <= fst g < z_edge nz z (S i)).
    { induction m as [|m IH]; intros Hm Hx; [lra|].
      destruct (Rlt_dec (fst g) (z_edge nz z m)) as [L|L].
      - destruct (IH ltac:(lia) L) as (i & Hi & B). exists i. split; [lia|exact B].
      - exists m. split; [lia|lra]. }
    apply (S nz); [lia|lra]. }
  destruct X as (i & Hi & B). exists i. split; [exact Hi|]. split; [now apply I|].
  intros j Hj Bj. apply I in Bj.
  destruct (Nat.lt_trichotomy j i) as [H|[H|H]]; [exfalso|exact H|exfalso].
  - pose proof (e_le nz _ He (S j) i ltac:(lia)). lra.
  - pose proof (e_le nz _ He (S i) j ltac:(lia)). lra.
Qed.

(** ** Luminosity tables *)
Lemma lum_pos nz z gal i x : In x (lum_in_bin nz z gal i) -> 0 < x.
Proof. unfold lum_in_bin. rewrite in_map_iff. intros (g & <- & _). apply pow10_pos. Qed.
Lemma list_min_in d l : list_min d l = d \/ In (list_min d l) l.
Proof.
  unfold list_min. revert d. induction l as [|a l IH]; intro d; simpl; [now left|].
  destruct (IH (Rmin d a)) as [E|E]; [|now right; right]. rewrite E.
  unfold Rmin. destruct (Rle_dec d a); [now left|right; now left].
Qed.

Lemma lum_table_centre nz z nl gal i j x l : (1 <= nl)%nat -> (j < nl)%nat -> lum_in_bin nz z gal i = x :: l ->
  fst (lum_table nz z nl gal) i j = hist_edge nl x (x :: l) j + hist_width nl x (x :: l) / 2 /\
  hist_edge nl x (x :: l) j < fst (lum_table nz z nl gal) i j < hist_edge nl x (x :: l) (j + 1).
Proof.
  intros Hn Hj E. unfold lum_table. cbn [fst]. rewrite E.
  pose proof (hist_width_pos nl x l Hn) as W.
  assert (F : 1 / 2 * ((hist_edge nl x (x :: l) nl - hist_edge nl x (x :: l) 0) / (1 * INR nl)) = hist_width nl x (x :: l) / 2).
  { rewrite !edge_at by lia. simpl (INR 0). unfold hist_width. field. apply not_0_INR. lia. }
  rewrite F. split; [reflexivity|]. rewrite edge_step by lia. lra.
Qed.
Lemma lum_uniform nz z nl gal i x l : (1 <= nl)%nat -> lum_in_bin nz z gal i = x :: l ->
  uniform nl (hist_width nl x (x :: l)) (fst (lum_table nz z nl gal) i).
Proof.
  intros Hn E j Hj. destruct (lum_table_centre nz z nl gal i j x l Hn ltac:(lia) E) as [A _].
  destruct (lum_table_centre nz z nl gal i (S j) x l Hn ltac:(lia) E) as [B _].
  rewrite A, B. replace (S j) with (j + 1)%nat by lia. rewrite edge_step by lia. ring.
Qed.

(** The means over the luminosity distribution are non-negative. *)
Lemma mean_nonneg nz z nl gal i l0 b : (1 <= nl)%nat ->
  0 <= mean_l_l0_to_beta nl (fst (lum_table nz z nl gal) i) (snd (lum_table nz z nl gal) i) l0 b.
Proof.
  intro Hn. destruct (lum_in_bin nz z gal i) as [|x l] eqn:E.
  - unfold mean_l_l0_to_beta. rewrite (simpson_ext nl _ (fun _ => 0) _ (fst (lum_table nz z nl gal) i)).
    + rewrite simpson_zero. lra.
    + exact Hn.
    + intros j _. unfold lum_table. cbn [snd]. rewrite E. ring.
    + reflexivity.
  - apply (simpson_uniform nl (hist_width nl x (x :: l))); auto.
    + now apply hist_width_pos.
    + now apply lum_uniform.
    + intros j Hj. apply Rmult_le_pos; [|apply fpow_ge0]. unfold lum_table. cbn [snd]. rewrite E.
      now apply hist_pdf_nonneg.
Qed.
Lemma broken_nonneg nz z nl gal i g l0 b b2 : (1 <= nl)%nat -> 0 <= g ->
  0 <= broken_powerlaw nl (fst (lum_table nz z nl gal) i) (snd (lum_table nz z nl gal) i) g l0 b b2.
Proof.
  intros Hn Hg. destruct (lum_in_bin nz z gal i) as [|x l] eqn:E.
  - unfold broken_powerlaw. rewrite (simpson_ext nl _ (fun _ => 0) _ (fst (lum_table nz z nl gal) i)).
    + rewrite simpson_zero. lra.
    + exact Hn.
    + intros j _. unfold lum_table. cbn [snd]. rewrite E. ring.
    + reflexivity.
  - apply (simpson_uniform nl (hist_width nl x (x :: l))); auto.
    + now apply hist_width_pos.
    + now apply lum_uniform.
    + intros j Hj. apply Rmult_le_pos.
      * unfold lum_table. cbn [snd]. rewrite E. now apply hist_pdf_nonneg.
      * unfold alignment_ampl. destruct (Rlt_dec l0 _); apply Rmult_le_pos; auto using fpow_ge0.
Qed.
Lemma empty_bin nz z nl gal i l0 b : (1 <= nl)%nat -> lum_in_bin nz z gal i = [] ->
  mean_l_l0_to_beta nl (fst (lum_table nz z nl gal) i) (snd (lum_table nz z nl gal) i) l0 b = 0.
Proof.
  intros Hn E. unfold mean_l_l0_to_beta. rewrite (simpson_ext nl _ (fun _ => 0) _ (fst (lum_table nz z nl gal) i)).
  - apply simpson_zero.
  - exact Hn.
  - intros j _. unfold lum_table. cbn [snd]. rewrite E. ring.
  - reflexivity.
Qed.

(** ** Bilinear interpolation *)
Lemma bilinear_nest n1 x1 n2 x2 v q1 q2 : (2 <= n1)%nat -> (2 <= n2)%nat -> incr n1 x1 -> incr n2 x2 ->
  bilinear n1 x1 n2 x2 v q1 q2 = interp_lin n1 x1 (fun i => interp_lin n2 x2 (v i) q2) q1.
Proof.
  intros H1 H2 I1 I2. unfold bilinear, interp_lin.
  assert (C : forall n x q, (2 <= n)%nat -> incr n x ->
    x (clip_idx n (searchsorted n x q) - 1)%nat < x (clip_idx n (searchsorted n x q))).
  { intros n x q Hn I. set (h := clip_idx n (searchsorted n x q)).
    assert (B : (1 <= h <= n - 1)%nat) by (unfold h, clip_idx; lia).
    pose proof (I (h - 1)%nat ltac:(lia)) as Z. replace (S (h - 1)) with h in Z by lia. exact Z. }
  pose proof (C n1 x1 q1 H1 I1). pose proof (C n2 x2 q2 H2 I2).
  set (h1 := clip_idx n1 (searchsorted n1 x1 q1)) in *. set (h2 := clip_idx n2 (searchsorted n2 x2 q2)) in *.
  field. lra.
Qed.
Lemma log10_incr n x : (forall i, (i < n)%nat -> 0 < x i) -> incr n x -> incr n (fun i => log10 (x i)).
Proof.
  intros P I i Hi. apply log10_lt; [apply P; lia|apply I, Hi].
Qed.

(** ** Upsampling *)
Section Up.
  Context (nm : nat) (mass : nat -> R) (nk : nat) (kv : nat -> R).
  Hypothesis (Hm : (2 <= nm)%nat) (Hk : (2 <= nk)%nat).
  Hypothesis (Im : incr nm mass) (Ik : incr nk kv).
  Hypothesis (Pm : forall i, (i < nm)%nat -> 0 < mass i) (Pk : forall i, (i < nk)%nat -> 0 < kv i).
  Let LM := log10_incr nm mass Pm Im.
  Let LK := log10_incr nk kv Pk Ik.

  Lemma up_pos w k m : 0 < k -> 0 < upsampled_hankel nm mass nk kv w k m.
  Proof. intro H. apply Rmult_lt_0_compat; [apply pow10_pos|now apply pow_lt]. Qed.

  Lemma up_node (w : nat -> nat -> R) i j : (i < nk)%nat -> (j < nm)%nat -> 0 < w j i ->
    upsampled_hankel nm mass nk kv w (kv i) (mass j) = w j i.
  Proof.
    intros Hi Hj W. unfold upsampled_hankel. rewrite bilinear_nest by (assumption || exact LM || exact LK).
    rewrite (interp_node nk _ _ i Hk LK Hi), (interp_node nm _ _ j Hm LM Hj).
    assert (0 < kv i ^ 2) by (apply pow_lt, Pk, Hi).
    rewrite pow10_log10 by (apply Rdiv_lt_0_compat; assumption). field. apply Rgt_not_eq. apply Pk, Hi.
  Qed.

  (** A product of powers of k and mass is reproduced everywhere, also beyond the grid. *)
  Lemma up_power (w : nat -> nat -> R) c a b k m : 0 < c -> 0 < k -> 0 < m ->
    (forall i j, (i < nk)%nat -> (j < nm)%nat -> w j i = c * Rpower (kv i) a * Rpower (mass j) b) ->
    upsampled_hankel nm mass nk kv w k m = c * Rpower k a * Rpower m b.
  Proof.
    intros Hc Hk0 Hm0 W.
    assert (L : forall x e, 0 < x -> log10 (Rpower x e) = e * log10 x).
    { intros x e Hx. unfold log10, Rpower. rewrite ln_exp. unfold Rdiv. ring. }
    assert (P : forall x e, 0 < Rpower x e) by (intros; apply exp_pos).
    unfold upsampled_hankel. rewrite bilinear_nest by (assumption || exact LM || exact LK).
    rewrite (interp_ext nk _ _ (fun i => (log10 c + b * log10 m) + (a - 2) * log10 (kv i))); [|exact Hk|].
    - rewrite interp_affine by (exact Hk || exact LK).
      replace (log10 c + b * log10 m + (a - 2) * log10 k) with (log10 (c * Rpower m b * Rpower k a / (k ^ 2))).
      + rewrite pow10_log10.
        * field. lra.
        * apply Rdiv_lt_0_compat; [|apply pow_lt; lra]. repeat apply Rmult_lt_0_compat; auto.
      + rewrite log10_div by (try apply pow_lt; repeat apply Rmult_lt_0_compat; auto).
        rewrite !log10_mult by (repeat apply Rmult_lt_0_compat; auto). rewrite !L by assumption.
        replace (k ^ 2) with (k * k) by ring. rewrite log10_mult by assumption. ring.
    - intros i Hi. rewrite (interp_ext nm _ _ (fun j => (log10 c + (a - 2) * log10 (kv i)) + b * log10 (mass j))); [|exact Hm|].
      + rewrite interp_affine by (exact Hm || exact LM). ring.
      + intros j Hj. pose proof (Pk i Hi) as P1. pose proof (Pm j Hj) as P2. rewrite W by assumption.
        rewrite log10_div by (try apply pow_lt; repeat apply Rmult_lt_0_compat; auto).
        rewrite !log10_mult by (repeat apply Rmult_lt_0_compat; auto). rewrite !L by assumption.
        replace (kv i ^ 2) with (kv i * kv i) by ring. rewrite log10_mult by assumption. ring.
  Qed.

  (** Inside the grid the result lies within the hull of the tabulated w / k^2, times k^2. *)
  Lemma up_hull (w : nat -> nat -> R) lo hi k m :
    kv 0%nat <= k <= kv (nk - 1)%nat -> mass 0%nat <= m <= mass (nm - 1)%nat ->
    0 < lo -> (forall i j, (i < nk)%nat -> (j < nm)%nat -> lo <= w j i / kv i ^ 2 <= hi) ->
    lo * k ^ 2 <= upsampled_hankel nm mass nk kv w k m <= hi * k ^ 2.
  Proof.
    intros Hkk Hmm Hlo B.
    pose proof (Pk 0%nat ltac:(lia)) as P1. pose proof (Pm 0%nat ltac:(lia)) as P2.
    assert (Hhi : 0 < hi) by (pose proof (B 0%nat 0%nat ltac:(lia) ltac:(lia)); lra).
    assert (K2 : 0 <= k ^ 2) by apply pow2_ge_0.
    assert (X : log10 lo <= bilinear nk (fun i => log10 (kv i)) nm (fun j => log10 (mass j))
       (fun i j => log10 (w j i / kv i ^ 2)) (log10 k) (log10 m) <= log10 hi).
    { rewrite bilinear_nest by (assumption || exact LM || exact LK).
      apply interp_bounds; [exact Hk|exact LK| | |].
      - apply log10_le; lra.
      - apply log10_le; lra.
      - intros i Hi. apply interp_bounds; [exact Hm|exact LM| | |].
        + apply log10_le; lra.
        + apply log10_le; lra.
        + intros j Hj. destruct (B i j Hi Hj) as [B1 B2]. split; apply log10_le; lra. }
    unfold upsampled_hankel. split.
    - rewrite <- (pow10_log10 lo Hlo) at 1. apply Rmult_le_compat_r; [exact K2|]. apply pow10_le. apply X.
    - rewrite <- (pow10_log10 hi Hhi). apply Rmult_le_compat_r; [exact K2|]. apply pow10_le. apply X.
  Qed.
End Up.
