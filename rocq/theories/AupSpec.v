(** Vocabulary of the statements about add_and_upsample.py. *)
From Coq Require Import ZArith.
From Verif Require Import Base OptModel ChainModel PredSpec AupModel.
Open Scope R_scope.

(** [v] lies at [q] on the broken line through the points of [x] and [y]; beyond the first and
    the last point the outermost chords go on. *)
Definition line_at (x y : list R) (q v : R) : Prop :=
  exists j, (S j < List.length x)%nat /\ (j = 0%nat \/ nth j x 0 <= q) /\
    (S (S j) = List.length x \/ q <= nth (S j) x 0) /\
    v = nth j y 0 + (nth (S j) y 0 - nth j y 0) * ((q - nth j x 0) / (nth (S j) x 0 - nth j x 0)).
(** A power spectrum by redshift and wavenumber. *)
Definition good_axes (z k : list R) : Prop := rising z /\ rising k /\ forall x, In x k -> 0 < x.
Definition shaped (z k : list R) (t : list (list R)) : Prop :=
  List.length t = List.length z /\ forall r, In r t -> List.length r = List.length k.
Definition has_power (b : dblock) (sec : string) (z k : list R) (t : list (list R)) : Prop :=
  b sec "z"%string = Some (BArr z) /\ b sec "k_h"%string = Some (BArr k) /\ b sec "p_k"%string = Some (BTab t) /\
  good_axes z k /\ shaped z k t.
(** Row [j] and column [i]. *)
Definition cell (t : list (list R)) (j i : nat) : R := nth i (nth j t []) 0.
(** [v] is what the spectrum [P] on [z] and [k] becomes at [zq] and [kq]: linear in redshift, on
    the chord or, unless [beyond], zero outside; then linear in the logarithm of the wavenumber. *)
Definition resampled (beyond : bool) (z k : list R) (P : nat -> nat -> R) (zq kq v : R) : Prop :=
  exists row, List.length row = List.length k /\
    (forall i, (i < List.length k)%nat ->
       (if beyond then line_at else says) z (map (fun j => P j i) (seq 0 (List.length z))) zq (nth i row 0)) /\
    line_at (map ln k) row (ln kq) v.
(** Section [sec] holds a table on [z] and [k] with values [V]. *)
Definition holds (b : dblock) (sec : string) (z k : list R) (V : R -> R -> R -> Prop) : Prop :=
  b sec "z"%string = Some (BArr z) /\ b sec "k_h"%string = Some (BArr k) /\
  exists t, b sec "p_k"%string = Some (BTab t) /\ shaped z k t /\
    forall j i, (j < List.length z)%nat -> (i < List.length k)%nat -> V (nth j z 0) (nth i k 0) (cell t j i).

(** The five spectra of galaxies and alignments. *)
Inductive spectrum := GG | GM | MI | II | GI.
Definition option_of (c : aconfig) (s : spectrum) : oval :=
  match s with GG => a_gg c | GM => a_gm c | MI => a_mI c | II => a_II c | GI => a_gI c end.
Definition name_of (s : spectrum) : string :=
  match s with
  | GG => "galaxy_power" | GM => "matter_galaxy_power" | MI => "matter_intrinsic_power" | II => "intrinsic_power"
  | GI => "galaxy_intrinsic_power"
  end%string.
(** Two factors of the population's number, or one. *)
Definition both_tracers (s : spectrum) : bool := match s with GG | II | GI => true | GM | MI => false end.
Definition mixed (s : spectrum) (f r b : R) : R :=
  if both_tracers s then f * f * r + (1 - f) * (1 - f) * b else f * r + (1 - f) * b.
(** Bins are numbered from one; a single bin has no number. *)
Definition bin_name (n : Z) (i : nat) : string := if Z.eqb n 1 then ""%string else ("_" ++ PipeModel.dec i)%string.
(** The output grid, and the bins of a sample. *)
Definition grid_of (b : dblock) (z k : list R) : Prop :=
  b "matter_power_lin"%string "z"%string = Some (BArr z) /\ b "matter_power_lin"%string "k_h"%string = Some (BArr k) /\
  forall x, In x k -> 0 < x.
Definition sample (b : dblock) (sec : string) (n oz : Z) : Prop :=
  b sec "nbins"%string = Some (BInt n) /\ b sec "observable_z"%string = Some (BInt oz).
Definition extrapolates : oval := OStr "extrapolate".
Definition adds : oval := OStr "add_and_extrapolate".
(** The sections a run writes. *)
Definition output (c : aconfig) (b : dblock) (sec : string) : Prop :=
  (a_mm c = extrapolates /\ (sec = "matter_power_nl" \/ sec = "matter_power_nl_mead")%string) \/
  exists s n i, (1 <= i <= Z.to_nat n)%nat /\ sec = (name_of s ++ bin_name n i)%string /\
    ((option_of c s = extrapolates /\ b (a_hext c) "nbins"%string = Some (BInt n)) \/
     (option_of c s = adds /\ b (a_hred c) "nbins"%string = Some (BInt n))).
(** The same configuration with the combinations left out. *)
Definition only_extrapolating (c : aconfig) : aconfig :=
  let f v := if is_str "add_and_extrapolate" v then OStr "no" else v in
  {| a_fred := a_fred c; a_mm := a_mm c; a_gg := f (a_gg c); a_gm := f (a_gm c); a_mI := f (a_mI c); a_II := f (a_II c);
     a_gI := f (a_gI c); a_ext := a_ext c; a_red := a_red c; a_blue := a_blue c; a_hext := a_hext c; a_hred := a_hred c;
     a_hblue := a_hblue c |}.
(** A fraction by redshift. *)
Definition fraction_at (c : aconfig) (z f : R) : Prop :=
  exists zf ff, a_fred c = Some (zf, ff) /\ line_at zf ff z f.
Definition good_fraction (c : aconfig) : Prop :=
  exists zf ff, a_fred c = Some (zf, ff) /\ rising zf /\ List.length ff = List.length zf.
(** Everything a run reads is there. *)
Definition complete (c : aconfig) (b : dblock) : Prop :=
  (a_mm c = extrapolates -> exists z k t, has_power b "matter_power_nl" z k t) /\
  (forall s, option_of c s = extrapolates -> exists n oz, sample b (a_hext c) n oz /\
     forall i, (1 <= i <= Z.to_nat n)%nat -> exists z k t, has_power b (name_of s ++ a_ext c ++ bin_name n i) z k t) /\
  (forall s, option_of c s = adds -> good_fraction c /\ exists n oz, sample b (a_hred c) n oz /\ b (a_hblue c) "nbins"%string = Some (BInt n) /\
     forall i, (1 <= i <= Z.to_nat n)%nat -> exists z k p q, has_power b (name_of s ++ a_red c ++ bin_name n i) z k p /\
       b (name_of s ++ a_blue c ++ bin_name n i)%string "p_k"%string = Some (BTab q) /\ shaped z k q).
(** A text option with a default. *)
Definition text (o : options) (n d v : string) : Prop := o n = Some (OStr v) \/ (o n = None /\ v = d).
(** The part of a section name that stands for [n]. *)
Definition part_of_name (n x : string) : Prop := (n = ""%string /\ x = ""%string) \/ (n <> ""%string /\ x = ("_" ++ n)%string).
(** The name add.py gives to a spectrum. *)
Definition mode_name (s : spectrum) : string := match s with GG => "gg" | GM => "gm" | MI => "mi" | II => "ii" | GI => "gi" end%string.
