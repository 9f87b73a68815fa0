(** The legacy likelihood front end: the two-point file, its scale cuts and the
    theory vector
    (cosmosis_modules/legacy/scale_cuts/{twopoint.py, wrapper_twopoint.py,
    scale_cuts.py}) and the Gaussian likelihood behind it
    (cosmosis_modules/legacy/utils/mini_like.py).

    Simplifications: FITS reading and writing is not modelled, a data file is the
    list of objects TwoPointFile.__init__ receives; angle_min / angle_max, the
    kernels, windows, units and metadata of a spectrum are left out (no cut and
    no vector reads them); [int], [float] and [np.linalg.inv] are arguments;
    -inf / inf are never given as an angular limit; the random draw of the
    "simulate" mode is an arbitrary vector. *)
From Verif Require Import Base OptModel.
From Verif Require PipeModel.
From Coq Require Import ZArith Ascii List.
Import ListNotations.
Open Scope string_scope.

(** ** Python and numpy primitives *)

(** [needle in hay] for strings. *)
Definition contains (needle hay : string) : bool :=
  match String.index 0 needle hay with Some _ => true | None => false end.
(** [x in list] for strings. *)
Definition mem (x : string) (l : list string) : bool := existsb (String.eqb x) l.
(** list.index, ValueError when absent. *)
Fixpoint index_of (x : string) (l : list string) : res nat :=
  match l with
  | [] => Err "ValueError"
  | y :: t => if String.eqb x y then Ok 0%nat else bind (index_of x t) (fun i => Ok (S i))
  end.
(** s.split(c). *)
Fixpoint split_on (c : ascii) (s : string) : list string :=
  match s with
  | EmptyString => [""]
  | String a t =>
      if Ascii.eqb a c then "" :: split_on c t
      else match split_on c t with
           | [] => [String a ""]
           | w :: r => String a w :: r
           end
  end.
(** s.split(): blanks separate, empty words are dropped. *)
Definition blank (a : ascii) : bool :=
  match a with " "%char => true | "009"%char => true | "010"%char => true | "011"%char => true
             | "012"%char => true | "013"%char => true | _ => false end.
Fixpoint unblank (s : string) : string :=
  match s with EmptyString => "" | String a t => String (if blank a then " "%char else a) (unblank t) end.
Definition words (s : string) : list string :=
  filter (fun w => negb (String.eqb w "")) (split_on " "%char (unblank s)).
(** sep.join(l). *)
Definition join (sep : string) (l : list string) : string := String.concat sep l.
(** dict lookup and assignment (insertion order kept, last value wins). *)
Fixpoint assoc {V} (k : string) (d : list (string * V)) : option V :=
  match d with [] => None | (k', v) :: t => if String.eqb k k' then Some v else assoc k t end.
Fixpoint assign {V} (k : string) (v : V) (d : list (string * V)) : list (string * V) :=
  match d with [] => [(k, v)] | (k', v') :: t => if String.eqb k k' then (k', v) :: t else (k', v') :: assign k v t end.
Definition triple := (string * Z * Z)%type.
Definition triple_eqb (a b : triple) : bool :=
  let '(n, x, y) := a in let '(m, u, v) := b in String.eqb n m && Z.eqb x u && Z.eqb y v.
Fixpoint assoc3 {V} (k : triple) (d : list (triple * V)) : option V :=
  match d with [] => None | (k', v) :: t => if triple_eqb k k' then Some v else assoc3 k t end.
Fixpoint assign3 {V} (k : triple) (v : V) (d : list (triple * V)) : list (triple * V) :=
  match d with [] => [(k, v)] | (k', v') :: t => if triple_eqb k k' then (k', v) :: t else (k', v') :: assign3 k v t end.

(** array[mask] for a boolean mask; a mask of another length is an IndexError. *)
Fixpoint select {A} (mask : list bool) (l : list A) : list A :=
  match mask, l with
  | b :: m, x :: t => if b then x :: select m t else select m t
  | _, _ => []
  end.
Definition mask1 {A} (mask : list bool) (l : list A) : res (list A) :=
  if Nat.eqb (length mask) (length l) then Ok (select mask l) else Err "IndexError".
(** The positions of the True entries, in order. *)
Fixpoint kept_from (k : nat) (mask : list bool) : list nat :=
  match mask with [] => [] | b :: m => if b then k :: kept_from (S k) m else kept_from (S k) m end.
Definition kept (mask : list bool) : list nat := kept_from 0 mask.
(** A square array. *)
Record mat := mkMat { m_n : nat; m_at : nat -> nat -> R }.
(** m[mask, :][:, mask]. *)
Definition mask_mat (mask : list bool) (m : mat) : res mat :=
  if Nat.eqb (length mask) (m_n m) then
    let k := kept mask in
    Ok (mkMat (length k) (fun i j => m_at m (nth i k 0%nat) (nth j k 0%nat)))
  else Err "IndexError".
(** mask[w] = False for the positions where [w] holds. *)
Definition clear (mask w : list bool) : list bool :=
  map (fun p => fst p && negb (snd p)) (combine mask w).
Definition ones (n : nat) : list bool := repeat true n.
Definition zeros (n : nat) : list bool := repeat false n.
Definition sum_nat (l : list nat) : nat := fold_right Nat.add 0%nat l.
(** Traversal that stops at the first exception. *)
Fixpoint mapr {A B} (f : A -> res B) (l : list A) : res (list B) :=
  match l with
  | [] => Ok []
  | x :: t => bind (f x) (fun y => bind (mapr f t) (fun ys => Ok (y :: ys)))
  end.
Fixpoint foldr {A S} (f : S -> A -> res S) (l : list A) (s : S) : res S :=
  match l with [] => Ok s | x :: t => bind (f s x) (foldr f t) end.
(** a[i]: IndexError outside (non-negative indices only). *)
Definition item {A} (i : nat) (l : list A) : res A :=
  match nth_error l i with Some x => Ok x | None => Err "IndexError" end.
(** Element-wise operation on two 1-d arrays with numpy's broadcasting. *)
Definition bcast2 (f : R -> R -> R) (a b : list R) : res (list R) :=
  if Nat.eqb (length a) (length b) then Ok (map (fun p => f (fst p) (snd p)) (combine a b))
  else match a, b with
       | [x], _ => Ok (map (f x) b)
       | _, [y] => Ok (map (fun x => f x y) a)
       | _, _ => Err "ValueError"
       end.

(** ** twopoint.py: the measurements *)

(** twopoint.py:342-381 SpectrumMeasurement (name, bin_pairs, bin1, bin2,
    angular_bin, angle, value, error). *)
Record spectrum := mkSp {
  sp_name : string; sp_pairs : list (Z * Z);
  sp_b1 : list Z; sp_b2 : list Z; sp_abin : list Z; sp_ang : list R; sp_val : list R;
  sp_err : option (list R) }.

(** twopoint.py:384-389 get_bin_pairs. *)
Definition pair_eqb (p q : Z * Z) : bool := Z.eqb (fst p) (fst q) && Z.eqb (snd p) (snd q).
Definition bin_pairs (b1 b2 : list Z) : list (Z * Z) :=
  fold_left (fun acc p => if existsb (pair_eqb p) acc then acc else acc ++ [p])%list (combine b1 b2) [].
(** twopoint.py:343-375 __init__ (bin_pairs is computed here and never again). *)
Definition new_spectrum (name : string) (b1 b2 abin : list Z) (ang val : list R) : spectrum :=
  mkSp name (bin_pairs b1 b2) b1 b2 abin ang val None.

(** twopoint.py:424-435 apply_mask. *)
Definition apply_mask (mask : list bool) (s : spectrum) : res spectrum :=
  bind (mask1 mask (sp_b1 s)) (fun b1 =>
  bind (mask1 mask (sp_b2 s)) (fun b2 =>
  bind (mask1 mask (sp_abin s)) (fun ab =>
  bind (mask1 mask (sp_ang s)) (fun an =>
  bind (mask1 mask (sp_val s)) (fun v =>
  bind (match sp_err s with None => Ok None | Some e => bind (mask1 mask e) (fun e' => Ok (Some e')) end) (fun e =>
    Ok (mkSp (sp_name s) (sp_pairs s) b1 b2 ab an v e))))))).

(** twopoint.py:448-449 auto_bins. *)
Definition auto_bins (s : spectrum) : list bool :=
  map (fun p => Z.eqb (fst p) (snd p)) (combine (sp_b1 s) (sp_b2 s)).

(** twopoint.py:108-118 OnePointMeasurement.__init__ (name, nsample, nobs). *)
Record onept := mkOp { op_name : string; op_nsample : list nat; op_nobs : list (list R) }.
Definition new_onept (name : string) (nobs : list (list R)) : onept :=
  mkOp name (map (@length R) nobs) nobs.

(** twopoint.py:605-617 CovarianceMatrixInfo.__init__. *)
Record covinfo := mkCi { ci_names : list string; ci_lengths : list nat; ci_starts : list nat; ci_cov : mat }.
Fixpoint starts_from (s : nat) (lens : list nat) : list nat :=
  match lens with
  | [] => [s]
  | l :: t => match t with [] => [s] | _ => s :: starts_from (l + s)%nat t end
  end.
Definition new_covinfo (names : list string) (lengths : list nat) (cov : mat) : covinfo :=
  mkCi names lengths (starts_from 0 lengths) cov.

(** twopoint.py:619-623 get_error (the square root of a negative variance, a NaN
    in numpy, is 0 here). *)
Definition diagonal (m : mat) : list R := map (fun i => m_at m i i) (seq 0 (m_n m)).
Definition get_error (ci : covinfo) (name : string) : res (list R) :=
  bind (index_of name (ci_names ci)) (fun i =>
  bind (item i (ci_starts ci)) (fun st =>
  bind (item i (ci_lengths ci)) (fun len =>
    Ok (map sqrt (firstn len (skipn st (diagonal (ci_cov ci)))))))).

(** ** twopoint.py: the file *)

(** twopoint.py:713-733 TwoPointFile (spectra, nobs, covmat_info, covmat). *)
Record tpfile := mkFile {
  f_spectra : list spectrum; f_nobs : option (list onept);
  f_info : option covinfo; f_cov : option mat }.

Definition obs_list (f : tpfile) : list onept := match f_nobs f with None => [] | Some o => o end.

(** twopoint.py:958-1001 get_cov_start. *)
(** One  cov_out[..., ...] = cov[..., ...]  assignment (993-996); the source slice
    ends at its start plus its length. *)
Definition put_block (out src : nat -> nat -> R) (si sj li lj : nat) : nat -> nat -> R :=
  fun i j => if (Nat.leb si i && Nat.ltb i (si + li) && Nat.leb sj j && Nat.ltb j (sj + lj))%bool
             then src (i - si)%nat (j - sj)%nat else out i j.
(** 992-997 the inner loop over [spec_inds]: pairs (start in cov, length). *)
Fixpoint block_row (cov : nat -> nat -> R) (ri li start_i : nat) (inds : list (nat * nat)) (start_j : nat)
    (out : nat -> nat -> R) : nat -> nat -> R :=
  match inds with
  | [] => out
  | (rj, lj) :: t =>
      block_row cov ri li start_i t (start_j + lj)
        (put_block out (fun a b => cov (ri + a)%nat (rj + b)%nat) start_i start_j li lj)
  end.
(** 990-1000 the outer loop. *)
Fixpoint block_rows (cov : nat -> nat -> R) (all rows : list (nat * nat)) (start_i : nat)
    (out : nat -> nat -> R) : nat -> nat -> R :=
  match rows with
  | [] => out
  | (ri, li) :: t => block_rows cov all t (start_i + li) (block_row cov ri li start_i all 0 out)
  end.
(** 972-974 cov_ends. *)
Fixpoint ends_from (e : nat) (lens : list nat) : list nat :=
  match lens with [] => [] | l :: t => (e + l)%nat :: ends_from (e + l) t end.
Definition cov_ends (names : list string) (lens : list nat) : res (list nat) :=
  let n := Nat.max 1 (length names) in
  if Nat.leb n (length lens) then Ok (ends_from 0 (firstn n lens)) else Err "IndexError".
Definition names_list (spectra : list spectrum) (nobs : option (list onept)) : list string :=
  (map sp_name spectra ++ match nobs with None => [] | Some o => map op_name o end)%list.
Definition list_eqb (a b : list string) : bool :=
  Nat.eqb (length a) (length b) && forallb (fun p => String.eqb (fst p) (snd p)) (combine a b).
Definition get_cov_start (spectra : list spectrum) (nobs : option (list onept)) (ci : covinfo) : res mat :=
  let cov := ci_cov ci in
  let nl := names_list spectra nobs in
  if list_eqb (ci_names ci) nl then Ok cov
  else
    bind (cov_ends (ci_names ci) (ci_lengths ci)) (fun ends =>
    if Nat.eqb (last ends 0%nat) (m_n cov) then
      bind (mapr (fun name =>
              bind (index_of name (ci_names ci)) (fun i =>
              bind (item i (ci_starts ci)) (fun st =>
              bind (item i (ci_lengths ci)) (fun len => Ok (st, len))))) nl) (fun inds =>
        Ok (mkMat (sum_nat (map snd inds)) (block_rows (m_at cov) inds inds 0 (fun _ _ => 0))))
    else Err "AssertionError").

(** twopoint.py:714-734 __init__ (dv_index, kernels and windows left out). *)
Definition set_error (ci : covinfo) (s : spectrum) : res spectrum :=
  bind (get_error ci (sp_name s)) (fun e =>
    Ok (mkSp (sp_name s) (sp_pairs s) (sp_b1 s) (sp_b2 s) (sp_abin s) (sp_ang s) (sp_val s) (Some e))).
Definition make_file (spectra : list spectrum) (nobs : option (list onept)) (info : option covinfo) : res tpfile :=
  match info with
  | None => Ok (mkFile spectra nobs None None)
  | Some ci =>
      bind (get_cov_start spectra nobs ci) (fun cov =>
      bind (mapr (set_error ci) spectra) (fun sp => Ok (mkFile sp nobs (Some ci) (Some cov))))
  end.

(** twopoint.py:788-794 _mask_covmat. *)
Definition mask_covmat (masks : list (list bool)) (f : tpfile) : res tpfile :=
  match f_cov f with
  | None => Ok f
  | Some m =>
      bind (mask_mat (concat masks) m) (fun m' =>
      match f_nobs f with
      | None => Err "TypeError"
      | Some obs =>
          Ok (mkFile (f_spectra f) (f_nobs f)
                (Some (new_covinfo (map sp_name (f_spectra f) ++ map op_name obs)
                         (map (fun s => length (sp_val s)) (f_spectra f) ++ map (fun o => sum_nat (op_nsample o)) obs) m'))
                (Some m'))
      end)
  end.

(** The shape shared by all the cuts (796-924): compute a mask per spectrum and
    apply it, add a mask of ones per one-point measurement, and - unless there
    is no mask at all - cut the covariance with them. *)
Definition obs_masks (f : tpfile) : list (list bool) :=
  map (fun o => ones (sum_nat (op_nsample o))) (obs_list f).
Definition cut_with (step : spectrum -> res (list bool * spectrum)) (f : tpfile) : res tpfile :=
  bind (mapr step (f_spectra f)) (fun l =>
    let masks := (map fst l ++ obs_masks f)%list in
    let f' := mkFile (map snd l) (f_nobs f) (f_info f) (f_cov f) in
    match masks with [] => Ok f' | _ => mask_covmat masks f' end).
Definition masked (mask : list bool) (s : spectrum) : res (list bool * spectrum) :=
  bind (apply_mask mask s) (fun s' => Ok (mask, s')).

(** twopoint.py:796-812 mask_bad. *)
Definition mask_bad (bad : R) (f : tpfile) : res tpfile :=
  cut_with (fun s => masked (map (fun v => if Req_EM_T v bad then false else true) (sp_val s)) s) f.

(** twopoint.py:848-861 mask_cross. *)
Definition mask_cross (f : tpfile) : res tpfile :=
  cut_with (fun s => masked (auto_bins s) s) f.

(** twopoint.py:863-901 mask_scales. *)
Definition at_pair (b1 b2 : Z) (s : spectrum) : list bool :=
  map (fun p => Z.eqb (fst p) b1 && Z.eqb (snd p) b2) (combine (sp_b1 s) (sp_b2 s)).
Definition outside (lo hi a : R) : bool :=
  (if Rlt_dec a lo then true else false) || (if Rlt_dec hi a then true else false).
Definition at_pair_outside (b1 b2 : Z) (lo hi : R) (s : spectrum) : list bool :=
  map (fun p => fst p && outside lo hi (snd p)) (combine (at_pair b1 b2 s) (sp_ang s)).
Definition scales_step (cuts : list (triple * (R * R))) (bin_cuts : list triple) (s : spectrum)
    (mask : list bool) (p : Z * Z) : list bool :=
  let key := (sp_name s, fst p, snd p) in
  if existsb (triple_eqb key) bin_cuts then clear mask (at_pair (fst p) (snd p) s)
  else match assoc3 key cuts with
       | None => mask
       | Some (lo, hi) => clear mask (at_pair_outside (fst p) (snd p) lo hi s)
       end.
Definition scales_mask (cuts : list (triple * (R * R))) (bin_cuts : list triple) (s : spectrum) : list bool :=
  fold_left (scales_step cuts bin_cuts s) (sp_pairs s) (ones (length (sp_val s))).
Definition mask_scales (cuts : list (triple * (R * R))) (bin_cuts : list triple) (f : tpfile) : res tpfile :=
  cut_with (fun s => masked (scales_mask cuts bin_cuts s) s) f.

(** twopoint.py:903-924 mask_scale; [spectra_to_cut] is a string in this code
    base, so [in] is the substring test. *)
Definition scale_mask (lo hi : R) (s : spectrum) : list bool :=
  map (fun a => (if Rlt_dec lo a then true else false) && (if Rlt_dec a hi then true else false)) (sp_ang s).
Definition mask_scale (spectra_to_cut : string) (lo hi : R) (f : tpfile) : res tpfile :=
  cut_with (fun s =>
    if negb (String.eqb spectra_to_cut "all") && negb (contains (sp_name s) spectra_to_cut)
    then Ok (ones (length (sp_val s)), s)
    else masked (scale_mask lo hi s) s) f.

(** twopoint.py:736-745 get_spectrum: exactly one spectrum of that name. *)
Definition one_spectrum (name : string) (f : tpfile) : bool :=
  Nat.eqb (length (filter (fun s => String.eqb (sp_name s) name) (f_spectra f))) 1.
(** twopoint.py:831-846 mask_indices.  An integer index may be negative; an empty
    list becomes a float array, which numpy refuses as an index. *)
Definition norm_index (n : nat) (i : Z) : res nat :=
  if (0 <=? i)%Z && (i <? Z.of_nat n)%Z then Ok (Z.to_nat i)
  else if (- Z.of_nat n <=? i)%Z && (i <? 0)%Z then Ok (Z.to_nat (Z.of_nat n + i))
  else Err "IndexError".
Definition indices_mask (n : nat) (indices : list Z) : res (list bool) :=
  match indices with
  | [] => Err "IndexError"
  | _ => bind (mapr (norm_index n) indices) (fun l =>
           Ok (map (fun i => negb (existsb (Nat.eqb i) l)) (seq 0 n)))
  end.
Definition mask_indices (name : string) (indices : list Z) (f : tpfile) : res tpfile :=
  if one_spectrum name f then
    cut_with (fun s =>
      if String.eqb (sp_name s) name then bind (indices_mask (length (sp_val s)) indices) (fun m => masked m s)
      else Ok (ones (length (sp_val s)), s)) f
  else Err "ValueError".

(** twopoint.py:926-956 choose_data_sets (covmat_info keeps the uncut matrix). *)
Definition choose_data_sets (sets : list string) (f : tpfile) : res tpfile :=
  let sets := map lower sets in
  let use s := mem (lower (sp_name s)) sets in
  let use_obs o := mem (lower (op_name o)) sets in
  let masks := (map (fun s => if use s then ones (length (sp_b1 s)) else zeros (length (sp_b1 s))) (f_spectra f)
             ++ map (fun o => if use_obs o then ones (sum_nat (op_nsample o)) else zeros (sum_nat (op_nsample o))) (obs_list f))%list in
  bind (foldr (fun _ d =>
          if existsb (fun s => String.eqb (lower (sp_name s)) d) (f_spectra f) then Ok tt
          else match f_nobs f with
               | None => Err "TypeError"
               | Some obs => if existsb (fun o => String.eqb (lower (op_name o)) d) obs then Ok tt else Err "ValueError"
               end) sets tt) (fun _ =>
  let spectra := filter use (f_spectra f) in
  let nobs := match f_nobs f with None => None | Some o => Some (filter use_obs o) end in
  match f_cov f with
  | None => Ok (mkFile spectra nobs (f_info f) None)
  | Some m =>
      match masks with
      | [] => Err "ValueError"
      | _ => bind (mask_mat (concat masks) m) (fun m' => Ok (mkFile spectra nobs (f_info f) (Some m')))
      end
  end).

(** ** wrapper_twopoint.py *)

(** np.array(obs.nobs).flatten(): bins of different lengths are a ValueError. *)
Definition flatten (l : list (list R)) : res (list R) :=
  match l with
  | [] => Ok []
  | x :: t => if forallb (fun y => Nat.eqb (length y) (length x)) t then Ok (concat l) else Err "ValueError"
  end.
(** wrapper_twopoint.py:231-239 makeMeanVector. *)
Definition mean_vector (f : tpfile) : res (list R) :=
  bind (mapr (fun o => flatten (op_nobs o)) (obs_list f)) (fun obs =>
    match (map sp_val (f_spectra f) ++ obs)%list with
    | [] => Err "ValueError"
    | l => Ok (concat l)
    end).

(** wrapper_twopoint.py:241-259 replaceMeanVector; 259 assigns bin number [i] of
    the [i]-th one-point measurement. *)
Definition slice (a b : nat) (l : list R) : list R := firstn (b - a) (skipn a l).
Fixpoint set_item {A} (i : nat) (x : A) (l : list A) : res (list A) :=
  match i, l with
  | _, [] => Err "IndexError"
  | O, _ :: t => Ok (x :: t)
  | S k, y :: t => bind (set_item k x t) (fun t' => Ok (y :: t'))
  end.
Fixpoint put_values (data : list R) (at_ : nat) (l : list spectrum) : list spectrum :=
  match l with
  | [] => []
  | s :: t =>
      let e := (at_ + length (sp_val s))%nat in
      mkSp (sp_name s) (sp_pairs s) (sp_b1 s) (sp_b2 s) (sp_abin s) (sp_ang s) (slice at_ e data) (sp_err s)
        :: put_values data e t
  end.
Fixpoint put_obs (data : list R) (at_ i : nat) (l : list onept) (lens : list nat) : res (list onept) :=
  match l, lens with
  | o :: t, n :: ns =>
      bind (set_item i (slice at_ (at_ + n) data) (op_nobs o)) (fun nobs =>
      bind (put_obs data (at_ + n) (S i) t ns) (fun t' =>
        Ok (mkOp (op_name o) (op_nsample o) nobs :: t')))
  | _, _ => Ok []
  end.
Definition replace_mean_vector (data : list R) (f : tpfile) : res tpfile :=
  bind (mapr (fun o => bind (flatten (op_nobs o)) (fun v => Ok (length v))) (obs_list f)) (fun lens =>
    let nsp := sum_nat (map (fun s => length (sp_val s)) (f_spectra f)) in
    if Nat.eqb (nsp + sum_nat lens) (length data) then
      bind (put_obs data nsp 0 (obs_list f) lens) (fun obs =>
        Ok (mkFile (put_values data 0 (f_spectra f))
              (match f_nobs f with None => None | Some _ => Some obs end) (f_info f) (f_cov f)))
    else Err "ValueError").

(** The five scale-cut arguments (wrapper_twopoint.py:117-121, 161-163). *)
Record scargs := mkArgs {
  a_cross : bool; a_pairs : list triple; a_bins : list (string * list Z);
  a_keep3 : list (triple * (R * R)); a_keep1 : list (string * (R * R)) }.

(** wrapper_twopoint.py:261-270 cutScales. *)
Definition cut_scales (a : scargs) (f : tpfile) : res tpfile :=
  bind (if a_cross a then mask_cross f else Ok f) (fun f =>
  bind (match a_pairs a with [] => Ok f | p => mask_scales [] p f end) (fun f =>
    foldr (fun f b => mask_indices (fst b) (snd b) f) (a_bins a) f)).
(** wrapper_twopoint.py:272-278 keepScales. *)
Definition keep_scales (a : scargs) (f : tpfile) : res tpfile :=
  bind (match a_keep3 a with [] => Ok f | c => mask_scales c [] f end) (fun f =>
    foldr (fun f k => mask_scale (fst k) (fst (snd k)) (snd (snd k)) f) (a_keep1 a) f).

(** The extension and section names of scale_cuts.py:21-46. *)
Record names_cfg := mkNames {
  x_w : string; x_gt : string; x_xip : string; x_xim : string; x_nn : string; x_ne : string; x_ee : string;
  x_gg : string; x_gm : string; x_en : string; x_1pt : string }.
(** scale_cuts.py:21-32 the default extension names. *)
Definition default_ext : names_cfg :=
  mkNames "wtheta" "gammat" "xip" "xim" "Pnn" "PneE" "PeeE" "Psi_gg" "Psi_gm" "En" "1pt".
(** scale_cuts.py:35-46 the default section names. *)
Definition default_sec : names_cfg :=
  mkNames "galaxy_xi" "galaxy_shear_xi" "shear_xi_plus" "shear_xi_minus" "bandpower_clustering" "bandpower_ggl"
          "bandpower_e_cosmic_shear" "psi_gg" "psi_gm" "cosebis" "observable_function".

(** wrapper_twopoint.py:24-67 labDict with the arguments of scale_cuts.py:77-87
    (gamma_x, P_ne_B, P_ee_B and B_n keep their defaults). *)
Definition lab_dict (c : names_cfg) : list (string * string) :=
  [("wtheta", x_w c); ("gammat", x_gt c); ("gammax", "gammax"); ("xip", x_xip c); ("xim", x_xim c);
   ("pnn", x_nn c); ("pnee", x_ne c); ("pneb", "PneB"); ("peee", x_ee c); ("peeb", "PeeB");
   ("en", x_en c); ("bn", "Bn"); ("psi_gm", x_gm c); ("psi_gg", x_gg c); ("1pt", x_1pt c); ("all", "all")].
Definition label_of (c : names_cfg) (k : string) : res string :=
  match assoc k (lab_dict c) with Some v => Ok v | None => Err "KeyError" end.

(** wrapper_twopoint.py:98-102 defaultToCustomStatsTag. *)
Definition custom_tag (c : names_cfg) (tag : string) : res string :=
  bind (mapr (fun s => label_of c (lower s)) (split_on "+"%char tag)) (fun l => Ok (join "+" l)).

Section Parse.
(** Python's int() and float() of a string; None is their ValueError. *)
Variable to_int : string -> option Z.
Variable to_float : string -> option R.
Definition int_ (s : string) : res Z := match to_int s with Some z => Ok z | None => Err "ValueError" end.
Definition float_ (s : string) : res R := match to_float s with Some x => Ok x | None => Err "ValueError" end.

(** wrapper_twopoint.py:149-151 and 156-158. *)
Definition two_floats (value : string) : res (R * R) :=
  let v := words value in
  bind (item 0 v) (fun a => bind (float_ a) (fun lo =>
  bind (item 1 v) (fun b => bind (float_ b) (fun hi => Ok (lo, hi))))).

(** wrapper_twopoint.py:134-138 the pairs of one cut_pair option. *)
Definition one_pair (tag p : string) : res triple :=
  let w := split_on "+"%char p in
  bind (item 0 w) (fun a => bind (int_ a) (fun i =>
  bind (item 1 w) (fun b => bind (int_ b) (fun j => Ok (tag, i, j))))).

(** wrapper_twopoint.py:123-159 the loop body on one (key, value). *)
Definition parse_item (c : names_cfg) (st : option (list string) * scargs) (kv : string * string)
    : res (option (list string) * scargs) :=
  let '(stats, a) := st in
  let '(key, value) := kv in
  let ks := split_on "_"%char key in
  if String.eqb key "use_stats" then Ok (Some (words value), a)
  else if String.eqb key "cut_cross" then
    Ok (stats, mkArgs (negb (String.eqb value "")) (a_pairs a) (a_bins a) (a_keep3 a) (a_keep1 a))
  else if contains "cut_pair" key then
    bind (item 2 ks) (fun k => bind (label_of c k) (fun tag =>
    bind (mapr (one_pair tag) (words value)) (fun l =>
      Ok (stats, mkArgs (a_cross a) (a_pairs a ++ l)%list (a_bins a) (a_keep3 a) (a_keep1 a)))))
  else if contains "cut_bin" key then
    bind (item 2 ks) (fun k => bind (label_of c k) (fun tag =>
    bind (mapr int_ (words value)) (fun l =>
      Ok (stats, mkArgs (a_cross a) (a_pairs a) (assign tag l (a_bins a)) (a_keep3 a) (a_keep1 a)))))
  else if contains "keep_ang" key && Nat.ltb 4 (length ks) then
    bind (item 2 ks) (fun k => bind (label_of c k) (fun tag =>
    bind (item 3 ks) (fun s1 => bind (int_ s1) (fun i =>
    bind (item 4 ks) (fun s2 => bind (int_ s2) (fun j =>
    bind (two_floats value) (fun r =>
      Ok (stats, mkArgs (a_cross a) (a_pairs a) (a_bins a) (assign3 (tag, i, j) r (a_keep3 a)) (a_keep1 a)))))))))
  else if contains "keep_ang" key && Nat.ltb (length ks) 4 then
    bind (item 2 ks) (fun k => bind (label_of c k) (fun tag =>
    bind (two_floats value) (fun r =>
      Ok (stats, mkArgs (a_cross a) (a_pairs a) (a_bins a) (a_keep3 a) (assign tag r (a_keep1 a))))))
  else Ok st.
(** wrapper_twopoint.py:110-163 makeScaleCutsArgs. *)
Definition no_args : scargs := mkArgs false [] [] [] [].
Definition make_args (c : names_cfg) (items : list (string * string)) : res (option (list string) * scargs) :=
  foldr (parse_item c) items (None, no_args).
End Parse.

(** scale_cuts.py:67-69 the inline options: key_list, value_list, strip(' []');
    the value is the str() of the option. *)
Definition strippable (a : ascii) : bool :=
  match a with " "%char => true | "["%char => true | "]"%char => true | _ => false end.
Fixpoint lstrip (s : string) : string :=
  match s with EmptyString => "" | String a t => if strippable a then lstrip t else s end.
Fixpoint rstrip (s : string) : string :=
  match s with
  | EmptyString => ""
  | String a t => match rstrip t with
                  | EmptyString => if strippable a then "" else String a ""
                  | t' => String a t'
                  end
  end.
Definition inline_items (options : list (string * string)) : list (string * string) :=
  map (fun kv => (fst kv, rstrip (lstrip (snd kv))))
    (filter (fun kv => mem (hd "" (split_on "_"%char (fst kv))) ["use"; "cut"; "keep"]) options).

(** ** scale_cuts.py *)

(** scale_cuts.py:88-109 the part of setup after the file is read. *)
Definition setup_cuts (c : names_cfg) (stats : option (list string)) (a : scargs) (f : tpfile) : res tpfile :=
  bind (cut_scales a f) (fun f =>
  bind (keep_scales a f) (fun f =>
  match stats with
  | None => Err "TypeError"
  | Some l => bind (mapr (custom_tag c) l) (fun lc => choose_data_sets lc f)
  end)).
Record setup_out := mkSetup { o_stats : list string; o_args : scargs; o_data : list R; o_cov : mat; o_inv : mat }.
Definition setup (to_int : string -> option Z) (to_float : string -> option R) (inv : mat -> res mat)
    (c : names_cfg) (items : list (string * string)) (f : tpfile) : res setup_out :=
  bind (make_args to_int to_float c items) (fun sa =>
  bind (setup_cuts c (fst sa) (snd sa) f) (fun f' =>
  bind (mean_vector f') (fun d =>
  match f_cov f', fst sa with
  | Some m, Some stats => bind (inv m) (fun i => Ok (mkSetup stats (snd sa) d m i))
  | _, _ => Err "TypeError"
  end))).

(** The data block: has_section and [section, name] (None is BlockNameNotFound). *)
Record block := mkBlock { b_section : string -> bool; b_value : string -> string -> option (list R) }.
Definition read (b : block) (sec name : string) : res (list R) :=
  match b_value b sec name with Some v => Ok v | None => Err "BlockNameNotFound" end.
Definition has_value (b : block) (sec name : string) : bool :=
  match b_value b sec name with Some _ => true | None => false end.
(** 'bin_%d_%d'. *)
Definition bin_name (i j : nat) : string := "bin_" ++ PipeModel.dec i ++ "_" ++ PipeModel.dec j.

Inductive angle_kind := Ell | Named (name : string).
(** scale_cuts.py:136-147 sectionNameList. *)
Definition section_list (sec ext : names_cfg) : list (string * string * angle_kind * bool) :=
  [ (x_w sec, x_w ext, Named "theta", false);
    (x_gt sec, x_gt ext, Named "theta", true);
    (x_xip sec, x_xip ext, Named "theta", false);
    (x_xim sec, x_xim ext, Named "theta", false);
    (x_nn sec, x_nn ext, Ell, false);
    (x_ne sec, x_ne ext, Ell, true);
    (x_ee sec, x_ee ext, Ell, false);
    (x_gg sec, x_gg ext, Named "index_bin_1_1", false);
    (x_gm sec, x_gm ext, Named "index_bin_1_1", true);
    (x_en sec, x_en ext, Named "n", false) ].

(** scale_cuts.py:163-170. *)
Definition angles (b : block) (sec : string) (k : angle_kind) : res (list R) :=
  match k with
  | Ell => bind (read b sec "l_min_vec") (fun lo => bind (read b sec "l_max_vec") (fun hi =>
             bcast2 (fun l u => pow10 (1 / 2 * (log10 l + log10 u))) lo hi))
  | Named n => read b sec n
  end.

Definition nb_tomo_max : nat := 1000.
(** scale_cuts.py:179-185: j runs until the first missing bin. *)
Fixpoint row_ggl (b : block) (sec : string) (i : nat) (fuel j : nat) : list (nat * nat * list R) :=
  match fuel with
  | O => []
  | S n => match b_value b sec (bin_name (i + 1) (j + 1)) with
           | None => []
           | Some v => (i, j, v) :: row_ggl b sec i n (S j)
           end
  end.
(** scale_cuts.py:174-185. *)
Fixpoint rows_ggl (b : block) (sec : string) (fuel i : nat) : list (nat * nat * list R) :=
  match fuel with
  | O => []
  | S n => if has_value b sec (bin_name (i + 1) 1)
           then (row_ggl b sec i nb_tomo_max 0 ++ rows_ggl b sec n (S i))%list else []
  end.
(** scale_cuts.py:192-198. *)
Fixpoint row_auto (b : block) (sec : string) (i : nat) (fuel j : nat) : list (nat * nat * list R) :=
  match fuel with
  | O => []
  | S n => match b_value b sec (bin_name (j + 1) (i + 1)) with
           | None => []
           | Some v => (i, j, v) :: row_auto b sec i n (S j)
           end
  end.
(** scale_cuts.py:187-198. *)
Fixpoint rows_auto (b : block) (sec : string) (fuel i : nat) : list (nat * nat * list R) :=
  match fuel with
  | O => []
  | S n => if has_value b sec (bin_name (i + 1) (i + 1))
           then (row_auto b sec i (nb_tomo_max - i) i ++ rows_auto b sec n (S i))%list else []
  end.
Definition gather (b : block) (sec : string) (ggl : bool) : list (nat * nat * list R) :=
  if ggl then rows_ggl b sec nb_tomo_max 0 else rows_auto b sec nb_tomo_max 0.

(** wrapper_twopoint.py:182-190 addTomo and 199-206 makeSpectrum. *)
Definition make_spectrum (name : string) (angle : list R) (tomo : list (nat * nat * list R)) : res spectrum :=
  match tomo with
  | [] => Err "ValueError"
  | _ =>
      let n := length angle in
      Ok (new_spectrum name
            (flat_map (fun t => repeat (Z.of_nat (fst (fst t)) + 1)%Z n) tomo)
            (flat_map (fun t => repeat (Z.of_nat (snd (fst t)) + 1)%Z n) tomo)
            (flat_map (fun _ => map (fun k => (Z.of_nat k + 1)%Z) (seq 0 n)) tomo)
            (flat_map (fun _ => angle) tomo)
            (flat_map (fun t => snd t) tomo))
  end.

(** scale_cuts.py:149-209 one line of the list. *)
Definition theory_spectrum (b : block) (line : string * string * angle_kind * bool) : res spectrum :=
  let '(sec, ext, kind, ggl) := line in
  if b_section b sec then
    bind (angles b sec kind) (fun ang => make_spectrum ext ang (gather b sec ggl))
  else Err "AssertionError".
Definition theory_lines (sec ext : names_cfg) (stats : list string) : list (string * string * angle_kind * bool) :=
  filter (fun line => mem (snd (fst (fst line))) stats) (section_list sec ext).

(** twopoint.py:183-217 OnePointMeasurement.from_block (the abscissae are read,
    only the values kept). *)
Definition obs_read (b : block) (sec : string) (i : nat) : res unit :=
  if has_value b sec ("obs_low_" ++ PipeModel.dec i) then
    bind (read b sec ("obs_" ++ PipeModel.dec i)) (fun _ =>
    bind (read b sec ("obs_high_" ++ PipeModel.dec i)) (fun _ => Ok tt))
  else bind (read b sec ("obs_" ++ PipeModel.dec i)) (fun _ => Ok tt).
Fixpoint onept_bins (b : block) (sec : string) (fuel i : nat) : res (list (list R)) :=
  match fuel with
  | O => Ok []
  | S n => match b_value b sec ("bin_" ++ PipeModel.dec i) with
           | None => Ok []
           | Some v => bind (obs_read b sec i) (fun _ =>
                       bind (onept_bins b sec n (S i)) (fun l => Ok (v :: l)))
           end
  end.
Definition max_onept : nat := 100 * 1000 - 2.
Definition theory_onept (b : block) (sec ext : names_cfg) (stats : list string) : res (option (list onept)) :=
  if mem (x_1pt ext) stats then
    if b_section b (x_1pt sec) then
      bind (onept_bins b (x_1pt sec) max_onept 1) (fun l => Ok (Some [new_onept "1pt" l]))
    else Err "AssertionError"
  else Ok None.

(** scale_cuts.py:149-221 the uncut theory. *)
Definition theory_file (b : block) (sec ext : names_cfg) (stats : list string) : res tpfile :=
  bind (mapr (theory_spectrum b) (theory_lines sec ext stats)) (fun sp =>
  bind (theory_onept b sec ext stats) (fun o => make_file sp o None)).
(** scale_cuts.py:224-230 cut it and flatten it. *)
Definition theory_vector (b : block) (sec ext : names_cfg) (s : setup_out) : res (list R) :=
  bind (theory_file b sec ext (o_stats s)) (fun f =>
  bind (cut_scales (o_args s) f) (fun f =>
  bind (keep_scales (o_args s) f) mean_vector)).

(** ** mini_like.py *)

(** utils/mini_like.py:26-29  r = d - mu;  chi2 = r @ inv_cov @ r;  -0.5 * chi2. *)
Definition quad_form (m : nat -> nat -> R) (r : list R) : R :=
  sumR (length r) (fun i => sumR (length r) (fun j => nth i r 0 * m i j * nth j r 0)).
Definition chi2 (data theory : list R) (inv : mat) : res R :=
  bind (bcast2 Rminus data theory) (fun r =>
    if Nat.eqb (length r) (m_n inv) then Ok (quad_form (m_at inv) r) else Err "ValueError").
Definition ln_like (data theory : list R) (inv : mat) : res R :=
  bind (chi2 data theory inv) (fun x => Ok (- (1 / 2) * x)).
