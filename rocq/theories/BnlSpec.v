(** Vocabulary for the statements about the beyond-linear bias. *)
From Verif Require Import Base.
Open Scope R_scope.

(** The box supported by the Dark Emulator: omega_b h^2, omega_c h^2, Omega_de,
    ln(10^10 A_s), n_s, w. *)
Definition in_box (v : list R) : Prop :=
  exists a b c d e f, v = [a; b; c; d; e; f] /\
    0.0211375 <= a <= 0.0233625 /\ 0.10782 <= b <= 0.13178 /\ 0.54752 <= c <= 0.82128 /\
    2.4752 <= d <= 3.7128 /\ 0.916275 <= e <= 1.012725 /\ -1.2 <= f <= -0.8.

(** The r.m.s. fluctuation scales with the square root of A_s, the other parameters fixed. *)
Definition sigma8_scales (sigma8 : list R -> R) : Prop :=
  forall a b c d d' e f, 0 < sigma8 [a; b; c; d; e; f] /\
    sigma8 [a; b; c; d'; e; f] = sigma8 [a; b; c; d; e; f] * exp ((d' - d) / 2).

(** Interior local maxima and minima, plateau edges included. *)
Definition is_local_max (l : list R) (i : nat) : Prop :=
  (1 <= i)%nat /\ (S i < List.length l)%nat /\
  nth (i - 1) l 0 <= nth i l 0 /\ nth (S i) l 0 <= nth i l 0 /\
  (nth (i - 1) l 0 < nth i l 0 \/ nth (S i) l 0 < nth i l 0).
Definition is_local_min (l : list R) (i : nat) : Prop :=
  (1 <= i)%nat /\ (S i < List.length l)%nat /\
  nth i l 0 <= nth (i - 1) l 0 /\ nth i l 0 <= nth (S i) l 0 /\
  (nth i l 0 < nth (i - 1) l 0 \/ nth i l 0 < nth (S i) l 0).
