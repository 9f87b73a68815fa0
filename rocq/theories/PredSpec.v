(** Vocabulary of the statements about predict_observable.py and the likelihood of
    mini_2pt_like.py. *)
From Coq Require Import ZArith.
From Verif Require Import Base ChainModel PredModel.
Open Scope R_scope.

(** Two points or more, strictly increasing. *)
Definition rising (x : list R) : Prop :=
  (2 <= List.length x)%nat /\ forall i, (S i < List.length x)%nat -> nth i x 0 < nth (S i) x 0.
(** [v] is what the table with nodes [x] and values [y] says at [q]: zero outside, the chord
    inside. *)
Definition says (x y : list R) (q v : R) : Prop :=
  ((q < nth 0 x 0 \/ nth (List.length x - 1) x 0 < q) /\ v = 0) \/
  (exists j, (S j < List.length x)%nat /\ nth j x 0 <= q <= nth (S j) x 0 /\
     v = nth j y 0 + (nth (S j) y 0 - nth j y 0) * ((q - nth j x 0) / (nth (S j) x 0 - nth j x 0))).
(** The observable function of a bin in the block: of the observable alone, or also of redshift. *)
Definition has_flat (b : dblock) (sec s : string) (x y : list R) : Prop :=
  b sec ("obs_val_" ++ s)%string = Some (BArr x) /\ b sec ("obs_func_" ++ s)%string = Some (BArr y) /\
  b sec ("z_bin_" ++ s)%string = None /\ List.length y = List.length x.
Definition has_table (b : dblock) (sec s : string) (z x : list R) (t : list (list R)) : Prop :=
  b sec ("obs_val_" ++ s)%string = Some (BArr x) /\ b sec ("obs_func_" ++ s)%string = Some (BTab t) /\
  b sec ("z_bin_" ++ s)%string = Some (BArr z) /\ List.length t = List.length z /\
  (forall r, In r t -> List.length r = List.length x).
(** The redshift distribution number [i] of a sample. *)
Definition has_nz (b : dblock) (sec : string) (i : nat) (z n : list R) : Prop :=
  b sec "z"%string = Some (BArr z) /\ b sec ("bin_" ++ PipeModel.dec i)%string = Some (BArr n) /\ List.length n = List.length z.
(** The entries of bin number [i] of the output. *)
Definition written (b : dblock) (sec : string) (i : nat) (v q : list R) : Prop :=
  b sec ("bin_" ++ PipeModel.dec i)%string = Some (BArr v) /\ b sec ("obs_" ++ PipeModel.dec i)%string = Some (BArr q) /\
  b sec ("mass_" ++ PipeModel.dec i)%string = Some (BArr q).
(** None of the names of the bins is taken. *)
Definition fresh (b : dblock) (sec : string) (n : nat) : Prop :=
  forall i, (1 <= i <= n)%nat -> b sec ("bin_" ++ PipeModel.dec i)%string = None /\
    b sec ("obs_" ++ PipeModel.dec i)%string = None /\ b sec ("mass_" ++ PipeModel.dec i)%string = None.
(** Sum over the points above [lo] and up to [hi]. *)
Definition sum_between (g : R * R -> R) (lo hi : R) (d : list (R * R)) : R :=
  fold_right (fun p s => (if Rlt_dec lo (fst p) then if Rle_dec (fst p) hi then g p else 0 else 0) + s) 0 d.
(** Edge number [j] of [n] equal bins between [a] and [b]. *)
Definition edge (a b : R) (n j : nat) : R := a + INR j * ((b - a) / INR n).
(** [v] is the mean of [f] over the points of bin [j], with their weights. *)
Definition bin_mean (f : R -> R) (d : list (R * R)) (a b : R) (n j : nat) (v : R) : Prop :=
  v * sum_between snd (edge a b n j) (edge a b n (j + 1)) d
  = sum_between (fun p => f (Rpower 10 (fst p)) * snd p) (edge a b n j) (edge a b n (j + 1)) d.
