(** Vocabulary for the two-point file and its cuts: what each entry of the data
    vector stands for, and what it means for a cut to keep the vector, its
    labels and its covariance in step. *)
From Verif Require Import Base OptModel TpModel.
From Coq Require Import ZArith Ascii List Sorting.Sorted.
Import ListNotations.

(** What one entry of the vector is: a tomographic bin pair at one angle of a
    named two-point statistic, or one sample of one bin of a one-point statistic. *)
Inductive point :=
| P2 (name : string) (b1 b2 angular_bin : Z) (angle : R)
| P1 (name : string) (bin sample : nat).

Definition sp_points (s : spectrum) : list point :=
  map (fun q => let '(b1, b2, ab, an) := q in P2 (sp_name s) b1 b2 ab an)
    (combine (combine (combine (sp_b1 s) (sp_b2 s)) (sp_abin s)) (sp_ang s)).
Definition bin_points (name : string) (k : nat) (bin : list R) : list point :=
  map (P1 name k) (seq 0 (length bin)).
Fixpoint bins_points (name : string) (k : nat) (bins : list (list R)) : list point :=
  match bins with [] => [] | b :: t => bin_points name k b ++ bins_points name (S k) t end.
Definition op_points (o : onept) : list point := bins_points (op_name o) 0 (op_nobs o).

Definition points (f : tpfile) : list point :=
  flat_map sp_points (f_spectra f) ++ flat_map op_points (obs_list f).
Definition values (f : tpfile) : list R :=
  flat_map sp_val (f_spectra f) ++ flat_map (fun o => concat (op_nobs o)) (obs_list f).

(** A measurement as the file format delivers it: columns of one length, the bin
    pairs collected from its own columns. *)
Record wf_sp (s : spectrum) : Prop := {
  wf_b1 : length (sp_b1 s) = length (sp_val s);
  wf_b2 : length (sp_b2 s) = length (sp_val s);
  wf_ab : length (sp_abin s) = length (sp_val s);
  wf_an : length (sp_ang s) = length (sp_val s);
  wf_er : forall e, sp_err s = Some e -> length e = length (sp_val s);
  wf_pairs : forall p, In p (combine (sp_b1 s) (sp_b2 s)) -> In p (sp_pairs s) }.
Record wf_op (o : onept) : Prop := {
  wf_nsample : op_nsample o = map (@length R) (op_nobs o);
  wf_rect : forall x y, In x (op_nobs o) -> In y (op_nobs o) -> length x = length y }.
Record wf_file (f : tpfile) : Prop := {
  wf_spectra : Forall wf_sp (f_spectra f);
  wf_obs : Forall wf_op (obs_list f);
  wf_cov : forall m, f_cov f = Some m -> m_n m = length (points f) /\ f_nobs f <> None }.

(** [l'] is the entries of [l] at the positions [K]. *)
Definition picks {A} (K : list nat) (l l' : list A) : Prop :=
  length l' = length K /\
  forall i k, nth_error K i = Some k -> exists x, nth_error l k = Some x /\ nth_error l' i = Some x.

(** The file [f'] is the file [f] cut down to the positions [K]: the same
    positions in the labels, in the data vector and in both directions of the
    covariance, in the original order. *)
Record cut_by (K : list nat) (f f' : tpfile) : Prop := {
  cut_sorted : StronglySorted lt K;
  cut_points : picks K (points f) (points f');
  cut_values : picks K (values f) (values f');
  cut_cov : match f_cov f, f_cov f' with
            | None, None => True
            | Some m, Some m' =>
                m_n m' = length K /\
                forall i j a b, nth_error K i = Some a -> nth_error K j = Some b -> m_at m' i j = m_at m a b
            | _, _ => False
            end }.
(** ... and the positions are exactly those whose label and value satisfy [P]. *)
Definition keeps (P : point -> R -> Prop) (f f' : tpfile) : Prop :=
  exists K, cut_by K f f' /\
    forall k p v, nth_error (points f) k = Some p -> nth_error (values f) k = Some v -> (In k K <-> P p v).

(** The cuts of a file. *)
Inductive op :=
| OBad (v : R) | OCross | OScales (cuts : list (triple * (R * R))) (bin_cuts : list triple)
| OScale (tag : string) (lo hi : R) | OIndices (name : string) (indices : list Z)
| OChoose (sets : list string).
Definition run_op (o : op) (f : tpfile) : res tpfile :=
  match o with
  | OBad v => mask_bad v f | OCross => mask_cross f | OScales c b => mask_scales c b f
  | OScale t lo hi => mask_scale t lo hi f | OIndices n i => mask_indices n i f
  | OChoose s => choose_data_sets s f
  end.
Fixpoint run_ops (l : list op) (f : tpfile) : res tpfile :=
  match l with [] => Ok f | o :: t => bind (run_op o f) (run_ops t) end.

(** [n] occurs inside [t]. *)
Definition substring_of (n t : string) : Prop := exists a b, t = (a ++ n ++ b)%string.

(** The covariance covers [len] rows from [start] for the measurement [n]. *)
Definition section_of (names : list string) (lens : list nat) (n : string) (start len : nat) : Prop :=
  exists k, nth_error names k = Some n /\ nth_error lens k = Some len /\ start = sum_nat (firstn k lens).

(** The cuts of one run of the scale-cuts module, in order
    (wrapper_twopoint.py:261-278). *)
Definition ops_of (a : scargs) : list op :=
  (if a_cross a then [OCross] else []) ++
  match a_pairs a with [] => [] | p => [OScales [] p] end ++
  map (fun b => OIndices (fst b) (snd b)) (a_bins a) ++
  match a_keep3 a with [] => [] | c => [OScales c []] end ++
  map (fun k => OScale (fst k) (fst (snd k)) (snd (snd k))) (a_keep1 a).

(** A covariance: positive definite as a quadratic form; and what
    np.linalg.inv delivers for it. *)
Definition pos_def (m : mat) : Prop :=
  forall x : nat -> R, (exists i, (i < m_n m)%nat /\ x i <> 0) ->
    0 < sumR (m_n m) (fun i => sumR (m_n m) (fun j => x i * m_at m i j * x j)).
Definition inverse_of (m i : mat) : Prop :=
  m_n i = m_n m /\
  forall a b, (a < m_n m)%nat -> (b < m_n m)%nat ->
    sumR (m_n m) (fun k => m_at m a k * m_at i k b) = if Nat.eqb a b then 1 else 0.

(** The options of the scale-cuts module, by key
    (wrapper_twopoint.py:123-159).  The third word of the key names the statistic. *)
Definition stat_of (c : names_cfg) (key t : string) : Prop :=
  exists s, nth_error (split_on "_"%char key) 2 = Some s /\ assoc s (lab_dict c) = Some t.
Definition pair_key (c : names_cfg) (t key : string) : Prop :=
  contains "cut_pair" key = true /\ stat_of c key t.
Definition bin_key (c : names_cfg) (t key : string) : Prop :=
  contains "cut_bin" key = true /\ contains "cut_pair" key = false /\ stat_of c key t.
Definition keep3_key (to_int : string -> option Z) (c : names_cfg) (t : triple) (key : string) : Prop :=
  contains "keep_ang" key = true /\ contains "cut_pair" key = false /\ contains "cut_bin" key = false /\
  (4 < length (split_on "_"%char key))%nat /\ stat_of c key (fst (fst t)) /\
  exists x y, nth_error (split_on "_"%char key) 3 = Some x /\ nth_error (split_on "_"%char key) 4 = Some y /\
    to_int x = Some (snd (fst t)) /\ to_int y = Some (snd t).
Definition keep1_key (c : names_cfg) (t key : string) : Prop :=
  contains "keep_ang" key = true /\ contains "cut_pair" key = false /\ contains "cut_bin" key = false /\
  (length (split_on "_"%char key) < 4)%nat /\ stat_of c key t.
(** Two limits written one after the other. *)
Definition limits (to_float : string -> option R) (value : string) (r : R * R) : Prop :=
  exists x y, nth_error (words value) 0 = Some x /\ nth_error (words value) 1 = Some y /\
    to_float x = Some (fst r) /\ to_float y = Some (snd r).
(** The value of the last option whose key satisfies [P]. *)
Definition latest (P : string -> Prop) (items : list (string * string)) (value : string) : Prop :=
  exists pre key post, items = pre ++ (key, value) :: post /\ P key /\ forall kv, In kv post -> ~ P (fst kv).
Definition nowhere (P : string -> Prop) (items : list (string * string)) : Prop :=
  forall kv, In kv items -> ~ P (fst kv).

(** What the data block holds for one statistic: [n] is the first bin missing. *)
Definition first_missing (P : nat -> bool) (n : nat) : Prop := (forall k, (k < n)%nat -> P k = true) /\ P n = false.
Definition block_val (b : block) (sec name : string) : list R := match b_value b sec name with Some v => v | None => [] end.
(** Galaxy-galaxy lensing: [nl] lenses, [ns i] sources behind lens [i + 1]. *)
Definition ggl_bins (b : block) (sec : string) (nl : nat) (ns : nat -> nat) : Prop :=
  first_missing (fun i => has_value b sec (bin_name (S i) 1)) nl /\ (nl <= 1000)%nat /\
  forall i, (i < nl)%nat -> first_missing (fun j => has_value b sec (bin_name (S i) (S j))) (ns i) /\ (ns i <= 1000)%nat.
(** The others: [n] bins, [m i] of them paired with bin [i + 1] from itself on. *)
Definition auto_pairs (b : block) (sec : string) (n : nat) (m : nat -> nat) : Prop :=
  first_missing (fun i => has_value b sec (bin_name (S i) (S i))) n /\ (n <= 1000)%nat /\
  forall i, (i < n)%nat -> first_missing (fun d => has_value b sec (bin_name (S (i + d)) (S i))) (m i) /\ (i + m i <= 1000)%nat.
(** The entries of one bin pair at the angles [ang]. *)
Definition pair_points (name : string) (ang : list R) (i j : nat) : list point :=
  map (fun k => P2 name (Z.of_nat (S i)) (Z.of_nat (S j)) (Z.of_nat (S k)) (nth k ang 0)) (seq 0 (length ang)).

(** What the list of options stands for: the last use_stats, cut_cross, cut_bin and
    keep_ang of each target counts, every cut_pair does. *)
Record means (to_int : string -> option Z) (to_float : string -> option R) (c : names_cfg) (items : list (string * string)) (stats : option (list string)) (a : scargs) : Prop := {
  mn_stats : match stats with
             | Some l => exists v, latest (fun k => k = "use_stats"%string) items v /\ l = words v
             | None => nowhere (fun k => k = "use_stats"%string) items
             end;
  mn_cross : a_cross a = true <-> exists v, latest (fun k => k = "cut_cross"%string) items v /\ v <> ""%string;
  mn_pairs : forall t i j, In (t, i, j) (a_pairs a) <->
    exists key value w x y, In (key, value) items /\ pair_key c t key /\ In w (words value) /\
      nth_error (split_on "+"%char w) 0 = Some x /\ nth_error (split_on "+"%char w) 1 = Some y /\ to_int x = Some i /\ to_int y = Some j;
  mn_bins : forall t, match assoc t (a_bins a) with
            | Some l => exists v, latest (bin_key c t) items v /\ Forall2 (fun w z => to_int w = Some z) (words v) l
            | None => nowhere (bin_key c t) items
            end;
  mn_keep3 : forall t, match assoc3 t (a_keep3 a) with
             | Some r => exists v, latest (keep3_key to_int c t) items v /\ limits to_float v r
             | None => nowhere (keep3_key to_int c t) items
             end;
  mn_keep1 : forall t, match assoc t (a_keep1 a) with
             | Some r => exists v, latest (keep1_key c t) items v /\ limits to_float v r
             | None => nowhere (keep1_key c t) items
             end }.

(** Without index cuts, the points that survive are given by their labels. *)
Definition passes (a : scargs) (p : point) : Prop :=
  match p with
  | P1 _ _ _ => True
  | P2 n b1 b2 _ x =>
      (a_cross a = true -> b1 = b2) /\ ~ In (n, b1, b2) (a_pairs a) /\
      (forall lo hi, assoc3 (n, b1, b2) (a_keep3 a) = Some (lo, hi) -> lo <= x <= hi) /\
      (forall t lo hi, In (t, (lo, hi)) (a_keep1 a) -> t = "all"%string \/ substring_of n t -> lo < x < hi)
  end.

(** The statistic an entry belongs to, and whether use_stats asks for it
    (twopoint.py:926-956: case does not matter). *)
Definition point_name (p : point) : string := match p with P2 n _ _ _ _ => n | P1 n _ _ => n end.
Definition chosen_b (sets : list string) (p : point) : bool := mem (lower (point_name p)) (map lower sets).

(** The file has a measurement of that name, up to case. *)
Definition set_known (f : tpfile) (d : string) : Prop :=
  (exists s, In s (f_spectra f) /\ lower (sp_name s) = lower d) \/
  (exists o, In o (obs_list f) /\ lower (op_name o) = lower d).

(** The integer [z] addresses entry [k] of an array of length [n]. *)
Definition names_entry (n : nat) (z : Z) (k : nat) : Prop :=
  (k < n)%nat /\ (z = Z.of_nat k \/ z = (Z.of_nat k - Z.of_nat n)%Z).
(** A spectrum just read: columns of one length, no errors yet; and the names and
    lengths of the covariance header cover it. *)
Definition raw_sp (s : spectrum) : Prop :=
  length (sp_b1 s) = length (sp_val s) /\ length (sp_b2 s) = length (sp_val s) /\
  length (sp_abin s) = length (sp_val s) /\ length (sp_ang s) = length (sp_val s) /\
  sp_pairs s = bin_pairs (sp_b1 s) (sp_b2 s) /\ sp_err s = None.
Definition measured (names : list string) (lens : list nat) (s : spectrum) : Prop :=
  exists st, section_of names lens (sp_name s) st (length (sp_val s)).
Definition counted (names : list string) (lens : list nat) (o : onept) : Prop :=
  exists st, section_of names lens (op_name o) st (length (concat (op_nobs o))).
