(** Vocabulary of the statements about mini_2pt_like.py and correlated_priors.py. *)
From Coq Require Import Ascii ZArith.
From Verif Require Import Base PipeModel ChainModel TpModel PredSpec MiniModel.
Open Scope R_scope.

(** The sections with [nb] bins each, bin by bin: section and number. *)
Definition bin_list (nb : string -> nat) (secs : list string) : list (string * nat) :=
  flat_map (fun s => map (pair s) (seq 1 (nb s))) secs.
Definition bin_counts (b : dblock) (secs : list string) (nb : string -> nat) : Prop :=
  forall s, In s secs -> b s "nbin"%string = Some (BInt (Z.of_nat (nb s))).
(** The sections of real-space correlations. *)
Definition of_separation (s : string) : Prop := s = "wp"%string \/ s = "ds"%string.
(** The theory of bin [i] of a section: a function of rp, of the mass or of the luminosity. *)
Definition has_theory (b : dblock) (s : string) (i : nat) (x y : list R) : Prop :=
  b s ("bin_" ++ dec i)%string = Some (BArr y) /\ List.length x = List.length y /\
  ((of_separation s /\ b s "rp"%string = Some (BArr x)) \/
   (~ of_separation s /\ b s ("mass_" ++ dec i)%string = Some (BArr x)) \/
   (~ of_separation s /\ b s ("mass_" ++ dec i)%string = None /\ b s ("luminosity_" ++ dec i)%string = Some (BArr x))).
(** [v] is on the chord, straight in ln x, of a table at [q]. *)
Definition log_chord (x y : list R) (q v : R) : Prop :=
  exists j, (S j < List.length x)%nat /\ nth j x 0 <= q <= nth (S j) x 0 /\
    v = nth j y 0 + (nth (S j) y 0 - nth j y 0) * ((ln q - ln (nth j x 0)) / (ln (nth (S j) x 0) - ln (nth j x 0))).
(** The factor a data point of a section is multiplied by before the comparison. *)
Definition unit_factor (to_mpc : string -> option R) (u s : string) (f : R) : Prop :=
  (of_separation s /\ to_mpc u = Some f) \/ (~ of_separation s /\ f = 1).
(** A quadratic form and the parts of a vector. *)
Definition form (n : nat) (m : nat -> nat -> R) (r : nat -> R) : R :=
  sumR n (fun a => sumR n (fun b => r a * m a b * r b)).
(** Increasing, positive, two points or more. *)
Definition scales (x : list R) : Prop := rising x /\ 0 < nth 0 x 0.
(** The nodes of a table from [lo] to [hi], [hi] excluded, are those number [i] to [i + n]. *)
Definition nodes_in (x : list R) (lo hi : R) (i n : nat) : Prop :=
  (i + n < List.length x)%nat /\
  forall k, (k < List.length x)%nat -> (lo <= nth k x 0 < hi <-> (i <= k <= i + n)%nat).
(** The edges around the points of a bin: geometric means between neighbours, and the same
    ratio again at both ends. *)
Definition edge_at (x : list R) (j : nat) : R :=
  let n := List.length x in
  if Nat.eqb j 0 then nth 0 x 0 * sqrt (nth 0 x 0 / nth 1 x 0)
  else if Nat.eqb j n then nth (n - 1) x 0 * sqrt (nth (n - 1) x 0 / nth (n - 2) x 0)
  else sqrt (nth (j - 1) x 0 * nth j x 0).
(** The trapezoids between nodes [i] and [i + n]. *)
Definition trapezoids (x y : list R) (i n : nat) : R :=
  sumR n (fun k => (nth (i + k + 1) x 0 - nth (i + k) x 0) * (nth (i + k + 1) y 0 + nth (i + k) y 0) / 2).
(** What a run leaves: chi-square of data and theory with the inverse covariance, the
    log-likelihood, and on request both vectors; nothing else changes. *)
Definition scored (b b' : dblock) (c : mconfig) (t : list R) : Prop :=
  let d := List.concat (m_y c) in
  let x := form (List.length d) (m_at (m_inv c)) (fun a => nth a d 0 - nth a t 0) in
  List.length t = List.length d /\
  b' "data_vector"%string (m_like c ++ "_CHI2")%string = Some (BDbl x) /\
  b' "likelihoods"%string (m_like c ++ "_LIKE")%string = Some (BDbl (- (x / 2))) /\
  (m_keep c = true -> b' "data_vector"%string "theory"%string = Some (BArr t) /\ b' "data_vector"%string "data"%string = Some (BArr d)) /\
  (forall s n, ~ (s = "data_vector"%string /\ n = (m_like c ++ "_CHI2")%string) -> ~ (s = "likelihoods"%string /\ n = (m_like c ++ "_LIKE")%string) ->
     (m_keep c = true -> ~ (s = "data_vector"%string /\ (n = "theory"%string \/ n = "data"%string))) -> b' s n = b s n).
(** The theory of all bins: that of the k-th section and bin at the points of the k-th file.
    [P x tx ty f t]: the table [tx], [ty] predicts [t] for the points [x] with factor [f]. *)
Definition predicted (to_mpc : string -> option R) (c : mconfig) (b : dblock) (nb : string -> nat)
    (P : list R -> list R -> list R -> R -> list R -> Prop) (ts : list (list R)) : Prop :=
  List.length ts = List.length (bin_list nb (m_sections c)) /\ List.length ts = List.length (m_x c) /\
  forall k, (k < List.length ts)%nat ->
    let p := nth k (bin_list nb (m_sections c)) (""%string, 0%nat) in
    exists f tx ty, unit_factor to_mpc (m_unit c) (fst p) f /\ has_theory b (fst p) (snd p) tx ty /\ P (nth k (m_x c) []) tx ty f (nth k ts []).
Definition on_chords (x tx ty : list R) (f : R) (t : list R) : Prop :=
  List.length t = List.length x /\ forall q, (q < List.length x)%nat -> log_chord tx ty (nth q x 0 * f) (nth q t 0).
Definition in_bins (x tx ty : list R) (f : R) (t : list R) : Prop :=
  List.length t = List.length x /\ forall j, (j < List.length x)%nat ->
    (forall i n, nodes_in tx (edge_at x j) (edge_at x (j + 1)) i n -> nth j t 0 = trapezoids tx ty i n) /\
    ((forall k, (k < List.length tx)%nat -> ~ (edge_at x j <= nth k tx 0 < edge_at x (j + 1))) -> nth j t 0 = 0).
(** Separations are positive and increase, in the data and in the theory. *)
Definition sane (to_mpc : string -> option R) (c : mconfig) (b : dblock) : Prop :=
  map (@List.length R) (m_x c) = map (@List.length R) (m_y c) /\
  (forall x, In x (m_x c) -> scales x) /\ (forall u f, to_mpc u = Some f -> 0 < f) /\
  (forall s i tx ty, In s (m_sections c) -> has_theory b s i tx ty -> scales tx).
(** File names in the order of their characters. *)
Definition in_name_order (l : list string) : Prop :=
  forall i j, (i < j < List.length l)%nat -> String.leb (nth i l ""%string) (nth j l ""%string) = true.
(** The uncorrelated parameters of a block: section and name of each, and their values. *)
Definition has_numbers (b : dblock) (names : list (string * string)) (z : list R) : Prop :=
  Forall2 (fun sn x => b (fst sn) (snd sn) = Some (BDbl x) \/ exists k, b (fst sn) (snd sn) = Some (BInt k) /\ x = IZR k) names z.
(** A name that can stand in a list of section/name words: characters other than blanks and /. *)
Definition plain_name (s : string) : Prop := forall n a, String.get n s = Some a -> a <> "/"%char /\ blank a = false.
(** The words of such a list, one blank between. *)
Definition listed (names : list (string * string)) : string := join " " (map (fun sn => (fst sn ++ "/" ++ snd sn)%string) names).
Definition pairs_of (names : list (string * string)) : list (list string) := map (fun sn => [fst sn; snd sn]) names.
(** The lower-triangular square root of a covariance. *)
Definition root_of (cov l : mat) : Prop :=
  m_n l = m_n cov /\ (forall i, (i < m_n cov)%nat -> 0 < m_at l i i) /\ (forall i j, (i < m_n cov)%nat -> (j < m_n cov)%nat -> (i < j)%nat -> m_at l i j = 0) /\
  forall i j, (i < m_n cov)%nat -> (j < m_n cov)%nat -> sumR (m_n cov) (fun k => m_at l i k * m_at l j k) = m_at cov i j.
