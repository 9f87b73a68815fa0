(** Special values of the baryon fractions; assembled damping facts. *)
From Coquelicot Require Import Coquelicot.
From Verif Require Import Base Spec Quad HodModel HodSpec PkModel PkSpec BaseFacts HodFacts PkFacts PkFacts3 PkFacts4 PkFacts6 PkFacts7 PkExample.
Open Scope R_scope.

Lemma pow10_0 : pow10 0 = 1.
Proof. unfold pow10. apply Rpower_O. unfold ten. lra. Qed.

Lemma fiducial_pivot : gas_pivot (78 / 10) 0 = pow10 (1387 / 100).
Proof.
  unfold gas_pivot. cbv zeta. replace (78 / 10 - 78 / 10) with 0 by lra.
  rewrite !Rmult_0_r, Rmult_0_l, Rplus_0_r, pow10_0. ring.
Qed.

Lemma fiducial_stars : fs (78 / 10) 0 = 201 / 10000.
Proof.
  unfold fs. cbv zeta. replace (78 / 10 - 78 / 10) with 0 by lra. rewrite !Rmult_0_r, Rmult_0_l, pow10_0. lra.
Qed.

(** The default [mb] keeps essentially all gas in every halo of at least a billion solar masses. *)
Lemma default_mb_inert ob om m fst : fst <= ob / om -> 1000000000 <= m ->
  (1 - 1 / 1000000000000000) * (ob / om - fst) <= fg_fit ob om m (1387 / 100) fst.
Proof.
  intros Hf Hm. unfold fg_fit. set (A := ob / om - fst). assert (0 <= A) by (unfold A; lra).
  set (x := (m / (1387 / 100)) ^ 2).
  assert (Hx : 1000000000000000 <= x).
  { unfold x. replace 1000000000000000 with (1000000000000000 * 1) by ring.
    assert (72000000 <= m / (1387 / 100)) by lra. set (y := m / (1387 / 100)) in *.
    clearbody y. simpl. nra. }
  clearbody x A. replace (A * x / (1 + x)) with (A * (1 - 1 / (1 + x))) by (field; lra).
  assert (1 / (1 + x) <= 1 / 1000000000000000).
  { unfold Rdiv. rewrite !Rmult_1_l. apply Rinv_le_contravar; lra. }
  nra.
Qed.

(** Each wavenumber scale means what it says. *)
Lemma trunc_scales t s : 0 < t -> trunc1 (Some t) (s * t) = s ^ 4 / (1 + s ^ 4) /\
  trunc1_ia (Some t) (s * t) = 1 - exp (- s ^ 2) /\ trunc2_ia (Some t) (s * t) = exp (- s ^ 2).
Proof.
  intros Ht. split; [apply trunc1_scale, Ht|]. pose proof (trunc_ia_sum t (s * t)).
  rewrite (trunc2_ia_scale t s Ht) in *. split; lra.
Qed.
