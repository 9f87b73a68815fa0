(** Model of src/onepower/bnl.py (NonLinearBias).  Definitions only.  The Dark Emulator
    (halo-halo power, linear power, sigma8) and scipy's quadratic interpolation are
    arguments. *)
From Coq Require Import ZArith.
From Verif Require Import Base Quad Interp.
Open Scope string_scope.
Open Scope R_scope.

(** ** Cosmology passed to the emulator *)

(** bnl.py:583-592  cparam_range. *)
Definition cparam_range : list (R * R) :=
  [(211375 / 10000000, 233625 / 10000000); (10782 / 100000, 13178 / 100000); (54752 / 100000, 82128 / 100000);
   (24752 / 10000, 37128 / 10000); (916275 / 1000000, 1012725 / 1000000); (- (12 / 10), - (8 / 10))].
(** bnl.py:597-601  the two assignments of the loop for one entry. *)
Definition clamp1 (v : R) (e : R * R) : R :=
  let out := if Rlt_dec v (fst e) then fst e else v in
  if Rlt_dec (snd e) v then snd e else out.
(** bnl.py:569-603  test_cosmo: reshape(1, 6) requires six values. *)
Definition test_cosmo (v : list R) : res (list R) :=
  if Nat.eqb (List.length v) 6 then Ok (map (fun p => clamp1 (fst p) (snd p)) (combine v cparam_range))
  else Err "ValueError".

Record cosmo_in := {
  b_h0 : R; b_sigma8 : option R; b_As : option R; b_ob : R; b_oc : R; b_ol : R; b_ns : R; b_w0 : R }.
(** bnl.py:194-216. *)
Definition ombh2 (c : cosmo_in) : R := b_ob c * fpow (b_h0 c) 2.
Definition omch2 (c : cosmo_in) : R := b_oc c * fpow (b_h0 c) 2.
(** The vector of bnl.py:233-240 and 256-263. *)
Definition cparam (c : cosmo_in) (lnA : R) : list R :=
  [ombh2 c; omch2 c; b_ol c - 64 / 100000; lnA; b_ns c; b_w0 c].
Definition A_s_init : R := 21 / 10 / 10 ^ 9.

(** bnl.py:218-269  emulator: the vectors given to set_cosmology, in order ([sigma8 v] is
    get_sigma8 after set_cosmology v). *)
Definition emulator (sigma8 : list R -> R) (c : cosmo_in) : res (list (list R)) :=
  match b_As c, b_sigma8 c with
  | None, Some s8 =>
      bind (test_cosmo (cparam c (ln (A_s_init * 10 ^ 10)))) (fun v0 =>
      let scaling := fpow s8 2 / fpow (sigma8 v0) 2 in
      let A_s := A_s_init * scaling in
      bind (test_cosmo (cparam c (ln (A_s * 10 ^ 10)))) (fun v => Ok [v0; v]))
  | Some A, _ => bind (test_cosmo (cparam c (ln (A * 10 ^ 10)))) (fun v => Ok [v])
  | None, None => Err "ValueError"
  end.

(** ** Truncations *)

(** bnl.py:311-345. *)
Definition low_k_truncation (k kt : R) : R := 1 / (1 + exp (- (10 * (log10 k - log10 kt)))).
Definition high_k_truncation (k kt : R) : R := 1 / (1 + exp (10 * (log10 k - log10 kt))).

(** bnl.py:347-373  minimum_halo_mass; [Om] is the emulator's Omega0. *)
Definition rhom (Om : R) : R := 277536627000 * Om.
Definition np_min : R := 200.
Definition npart : R := 2048.
Definition Lbox : R := 1000.
Definition vmin : R := fpow Lbox 3 * np_min / fpow npart 3.
Definition rmin : R := fpow ((3 * vmin) / (4 * PI)) (1 / 3).
Definition minimum_halo_mass (Om : R) : R * R :=
  (rhom Om * fpow Lbox 3 * np_min / fpow npart 3, 2 * PI / rmin).
(** bnl.py:375-391. *)
Definition bnl_rvir (Om m : R) : R := fpow ((3 * m) / (4 * PI * 200 * rhom Om)) (1 / 3).

(** ** Envelopes *)

(** np.diff, np.sign, nonzero of a condition. *)
Fixpoint diff (l : list R) : list R :=
  match l with
  | x :: (y :: _) as t => y - x :: diff t
  | _ => []
  end.
Definition sgn (x : R) : R := if Rlt_dec x 0 then -1 else if Rlt_dec 0 x then 1 else 0.
Fixpoint where_ (p : R -> bool) (i : nat) (l : list R) : list nat :=
  match l with
  | [] => []
  | x :: t => if p x then i :: where_ p (S i) t else where_ p (S i) t
  end.
Definition posb (x : R) : bool := if Rlt_dec 0 x then true else false.
Definition negb_ (x : R) : bool := if Rlt_dec x 0 then true else false.
(** bnl.py:411-414. *)
Definition local_min (data : list R) : list nat :=
  map (fun i => (i + 1)%nat) (where_ posb 0 (diff (map sgn (diff data)))).
Definition local_max (data : list R) : list nat :=
  map (fun i => (i + 1)%nat) (where_ negb_ 0 (diff (map sgn (diff data)))).

(** np.argmin / np.argmax: the first extremal entry of a non-empty list. *)
Fixpoint arg_best (better : R -> R -> bool) (best : nat) (vb : R) (i : nat) (l : list R) : nat :=
  match l with
  | [] => best
  | x :: t => if better x vb then arg_best better i x (S i) t else arg_best better best vb (S i) t
  end.
Definition ltb_ (x y : R) : bool := if Rlt_dec x y then true else false.
Definition argmin (l : list R) : nat := match l with [] => 0%nat | x :: t => arg_best ltb_ 0 x 1 t end.
Definition argmax (l : list R) : nat := match l with [] => 0%nat | x :: t => arg_best (fun a b => ltb_ b a) 0 x 1 t end.

(** bnl.py:417-429  one extremum per chunk of [d]; range(0, len, 0) is an error. *)
Definition chunks (arg : list R -> nat) (data : list R) (d : nat) (l : list nat) : res (list nat) :=
  if Nat.eqb d 0 then Err "ValueError"
  else Ok (map (fun c => let i := (c * d)%nat in
                 nth (i + arg (map (fun t => nth t data 0) (firstn d (skipn i l)))) l 0%nat)
             (seq 0 ((List.length l + d - 1) / d))).
(** bnl.py:393-431  hl_envelopes_idx. *)
Definition hl_envelopes_idx (data : list R) (dmin dmax : nat) : res (list nat * list nat) :=
  bind (chunks argmin data dmin (local_min data)) (fun lmin =>
  bind (chunks argmax data dmax (local_max data)) (fun lmax => Ok (lmin, lmax))).

(** ** Halo-halo power to beta *)
Section DarkQuest.
  (** get_phh_mass(k, M1, M2), get_pklin_from_z(k) at one redshift, and
      interp1d(kind='quadratic', fill_value='extrapolate'), which rejects some node lists. *)
  Variable phh : R -> R -> R -> R.
  Variable plin : R -> R.
  Variable quadratic : list R -> list R -> res (R -> R).

  Definition klin : R := 5 / 100.
  (** bnl.py:471-475  b01. *)
  Definition b01 (m : R) : R := sqrt (phh klin m m / plin klin).
  (** bnl.py:478  hk_mask. *)
  Definition hk_mask (k : R) : bool :=
    if Rlt_dec 100 k then (if Rlt_dec k 200 then true else false) else false.
  Definition mean (l : list R) : R := fold_right Rplus 0 l / INR (List.length l).
  (** bnl.py:494-496  shot noise. *)
  Definition shot (ks : list R) (m1 m2 : R) : R := mean (map (fun k => phh k m1 m2) (filter hk_mask ks)).
  (** bnl.py:499  raw beta. *)
  Definition raw_beta (ks : list R) (m1 m2 k : R) : R :=
    (phh k m1 m2 - shot ks m1 m2) / (b01 m1 * b01 m2 * plin k) - 1.
  (** bnl.py:505-519  smoothing and truncation for one pair of masses. *)
  Definition beta_final (ks : list R) (kmax m1 m2 : R) : res (R -> R) :=
    let data := map (fun k => Rabs (raw_beta ks m1 m2 k + 1)) ks in
    bind (hl_envelopes_idx data 1 1) (fun e =>
    let lmax := snd e in
    bind (quadratic (map (fun i => nth i ks 0) lmax) (map (fun i => nth i data 0) lmax)) (fun f =>
    Ok (fun k => (f k - 1 - (f klin - 1)) * low_k_truncation k klin * high_k_truncation k (3 * kmax)))).
End DarkQuest.

(** bnl.py:483-524  the double loop: entries (i, j) for i <= j are computed, the mirror
    image is copied.  [b i j] is the spectrum computed for the pair, or its exception. *)
Definition set2 {A} (t : nat -> nat -> A) (i j : nat) (v : A) : nat -> nat -> A :=
  fun a b => if Nat.eqb a i && Nat.eqb b j then v else t a b.
Fixpoint inner {A} (b : nat -> nat -> res A) (i : nat) (js : list nat) (t : nat -> nat -> A) : res (nat -> nat -> A) :=
  match js with
  | [] => Ok t
  | j :: js => bind (b i j) (fun v =>
      let t := set2 t i j v in
      let t := if Nat.eqb j i then t else set2 t j i v in
      inner b i js t)
  end.
Fixpoint outer {A} (b : nat -> nat -> res A) (n : nat) (is : list nat) (t : nat -> nat -> A) : res (nat -> nat -> A) :=
  match is with
  | [] => Ok t
  | i :: is => bind (inner b i (seq i (n - i)) t) (fun t => outer b n is t)
  end.
(** bnl.py:433-526  compute_bnl_darkquest for one grid of masses (the only use). *)
Definition compute_bnl_darkquest (phh : R -> R -> R -> R) (plin : R -> R)
    (quadratic : list R -> list R -> res (R -> R)) (log10M : list R) (ks : list R) (kmax : R)
  : res (nat -> nat -> nat -> R) :=
  let M := map pow10 log10M in
  let n := List.length M in
  bind (outer (fun i j => bind (beta_final phh plin quadratic ks kmax (nth i M 0) (nth j M 0))
                            (fun f => Ok (fun ik => f (nth ik ks 0)))) n (seq 0 n) (fun _ _ _ => 0))
    (fun t => Ok t).

(** ** Table *)

(** scipy RegularGridInterpolator(method='nearest', bounds_error=False, fill_value=None) on
    one axis: the lower node of the bracketing cell (outer cells beyond the grid) or the
    upper one when past the middle. *)
Definition nearest (n : nat) (x : A1) (q : R) : nat :=
  let h := clip_idx n (searchsorted n x q) in let l := (h - 1)%nat in
  if Rle_dec ((q - x l) / (x h - x l)) (1 / 2) then l else h.
Definition rgi_nearest (nm : nat) (lm : A1) (nk : nat) (lk : A1) (beta : nat -> nat -> nat -> R) (x y z : R) : R :=
  beta (nearest nm lm x) (nearest nm lm y) (nearest nk lk z).

(** bnl.py:528-567  create_bnl_interpolation_function: grids. *)
Definition lenM : nat := 5.
Definition lenk : nat := (10 * 10 * 10)%nat.
Definition grid_M (Om : R) : A1 := logspace (log10 (fst (minimum_halo_mass Om))) (log10 (pow10 14)) lenM.
Definition grid_k : A1 := logspace (-3) (log10 200) lenk.

(** np.repeat(l, n), np.tile(l, n). *)
Definition np_repeat {A} (l : list A) (n : nat) : list A := flat_map (fun x => repeat x n) l.
Definition np_tile {A} (l : list A) (n : nat) : list A := List.concat (repeat l n).
(** t[kk, ii, jj] = v: the assignments in order. *)
Definition set3 {A} (t : nat -> nat -> nat -> A) (c : nat * (nat * nat)) (v : A) : nat -> nat -> nat -> A :=
  fun k i j => if Nat.eqb k (fst c) && (Nat.eqb i (fst (snd c)) && Nat.eqb j (snd (snd c))) then v else t k i j.
Definition fancy_set {A} (t : nat -> nat -> nat -> A) (cs : list (nat * (nat * nat))) (vs : list A)
  : nat -> nat -> nat -> A :=
  fold_left (fun t p => set3 t (fst p) (snd p)) (combine cs vs) t.
(** bnl.py:282-309  one table from one interpolation function. *)
Definition bnl_table (f : R -> R -> R -> R) (mass k_vec : list R) : nat -> nat -> nat -> R :=
  let x := map log10 mass in let y := map log10 mass in let z := map log10 k_vec in
  let n := List.length x in let m := List.length y in let p := List.length z in
  let Z := np_repeat z (n * m) in
  let X := np_tile (np_repeat x m) p in
  let Y := np_tile y (n * p) in
  let values := combine X (combine Y Z) in
  let kk := np_repeat (seq 0 p) (n * m) in
  let ii := np_tile (np_repeat (seq 0 n) m) p in
  let jj := np_tile (seq 0 m) (n * p) in
  fancy_set (fun _ _ _ => 0) (combine kk (combine ii jj))
    (map (fun v => f (fst v) (fst (snd v)) (snd (snd v))) values).

(** bnl.py:271-309 with 528-567: one table per redshift, or one at z = 0.01.  [build z] is
    the interpolation function built at redshift z, or its exception. *)
Fixpoint map_res {A B} (f : A -> res B) (l : list A) : res (list B) :=
  match l with
  | [] => Ok []
  | x :: l => bind (f x) (fun y => bind (map_res f l) (fun t => Ok (y :: t)))
  end.
Definition bnl (build : R -> res (R -> R -> R -> R)) (z_dep : bool) (z_vec mass k_vec : list R)
  : res (list (nat -> nat -> nat -> R)) :=
  if z_dep then bind (map_res build z_vec) (fun fs => Ok (map (fun f => bnl_table f mass k_vec) fs))
  else bind (build (1 / 100)) (fun f => Ok [bnl_table f mass k_vec]).
(** The interpolation function built at redshift z from the emulator. *)
Definition build_interp (phh : R -> R -> R -> R -> R) (plin : R -> R -> R)
    (quadratic : list R -> list R -> res (R -> R)) (Om z : R) : res (R -> R -> R -> R) :=
  let lm := fun i => log10 (grid_M Om i) in
  let lk := fun i => log10 (grid_k i) in
  bind (compute_bnl_darkquest (phh z) (plin z) quadratic (map lm (seq 0 lenM)) (map grid_k (seq 0 lenk))
          (snd (minimum_halo_mass Om)))
    (fun beta => Ok (rgi_nearest lenM lm lenk lk beta)).
