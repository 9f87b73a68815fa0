(** Quadrature and interpolation facts in terms of the Riemann integral. *)
From Coquelicot Require Import Coquelicot.
From Verif Require Import Base Spec Quad Interp QuadFacts InterpFacts.
Open Scope R_scope.

(** ** Calculus link: antiderivative = integral *)
Lemma prim2_RInt a b c lo hi :
  RInt (fun t => a + b * t + c * t ^ 2) lo hi = prim2 a b c hi - prim2 a b c lo.
Proof.
  change (RInt (fun t => a + b * t + c * t ^ 2) lo hi = minus (prim2 a b c hi) (prim2 a b c lo)).
  apply is_RInt_unique.
  apply (is_RInt_derive (V := R_CompleteNormedModule) (prim2 a b c) (fun t => a + b * t + c * t ^ 2)).
  - intros t _. unfold prim2. auto_derive; [trivial|]. field.
  - intros t _. apply (ex_derive_continuous (V := R_NormedModule)). auto_derive. trivial.
Qed.

Lemma simpson_RInt n f (x : nat -> R) : (3 <= n)%nat -> increasing n x -> is_parabola f ->
  simpson n (fun i => f (x i)) x = RInt f (x 0%nat) (x (n - 1)%nat).
Proof.
  intros Hn Hx [a [b [c Hf]]].
  rewrite (RInt_ext f (fun t => a + b * t + c * t ^ 2)) by (intros t _; apply Hf).
  rewrite prim2_RInt, <- simpson_exact by assumption.
  apply simpson_ext; [lia| |reflexivity]. intros i _. apply Hf.
Qed.


Lemma simpson_lin n a b f g x :
  simpson n (fun i => a * f i + b * g i) x = a * simpson n f x + b * simpson n g x.
Proof.
  rewrite <- !simpson_scal, <- simpson_plus. reflexivity.
Qed.

Lemma simpson2_RInt f (x : nat -> R) : is_affine f ->
  simpson 2 (fun i => f (x i)) x = RInt f (x 0%nat) (x 1%nat).
Proof.
  intros [a [b Hf]].
  assert (Hf' : forall t, f t = a + b * t + 0 * t ^ 2) by (intros; rewrite Hf; ring).
  rewrite (RInt_ext f (fun t => a + b * t + 0 * t ^ 2)) by (intros t _; apply Hf').
  rewrite prim2_RInt, <- simpson_exact_affine2. unfold simpson; simpl. rewrite !Hf. reflexivity.
Qed.

Lemma trap_affine_RInt n mass w f : trap_weights n mass = Ok w -> is_affine f ->
  trap_integrate n w (fun i => f (mass i)) = RInt f (mass 0%nat) (mass (n - 1)%nat).
Proof.
  intros Hw [a [b Hf]]. rewrite (trap_classical n mass w) by exact Hw.
  assert (Hf' : forall t, f t = a + b * t + 0 * t ^ 2) by (intros; rewrite Hf; ring).
  rewrite (RInt_ext f (fun t => a + b * t + 0 * t ^ 2)) by (intros t _; apply Hf').
  rewrite prim2_RInt, <- trapezoid_affine.
  generalize (n - 1)%nat as k. intros k. induction k as [|k IH]; simpl; [reflexivity|].
  rewrite IH, !Hf. reflexivity.
Qed.

Lemma trap_weight_sum n mass w : trap_weights n mass = Ok w ->
  sumR n w = mass (n - 1)%nat - mass 0%nat.
Proof.
  intros Hw.
  transitivity (trap_integrate n w (fun _ => 1)).
  - unfold trap_integrate. apply sumR_ext. intros; ring.
  - rewrite (trap_classical n mass w) by exact Hw.
    generalize (n - 1)%nat as k. induction k as [|k IH]; simpl; [ring|rewrite IH; field].
Qed.

Lemma trap_nonneg n mass w y : trap_weights n mass = Ok w -> increasing n mass ->
  (forall i, (i < n)%nat -> 0 <= y i) -> 0 <= trap_integrate n w y.
Proof.
  intros Hw Hi Hy. rewrite (trap_classical n mass w) by exact Hw.
  unfold trap_weights in Hw. destruct (Nat.leb n 1) eqn:Hn; [discriminate|].
  apply Nat.leb_gt in Hn. apply trapezoid_nonneg.
  - intros i Hlt. left. apply Hi. lia.
  - intros i Hle. apply Hy. lia.
Qed.
