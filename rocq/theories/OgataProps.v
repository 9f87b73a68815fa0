(** Properties of the quadrature projection pk_to_real_ogata (C84). *)
From Coquelicot Require Import Coquelicot.
From Coq Require Import Lia.
From Verif Require Import Base Spec Quad Interp FftModel FftSpec UellSpec UellFacts RsModel RsSpec OgataModel OgataSpec OgataFacts.
Open Scope R_scope.

(** C84 *)
Theorem C84_setup : forall ty n k_min k_max lo hi,
  (ogata_setup ty n k_min k_max lo hi = Err "ValueError" <-> ty <> "wp"%string /\ ty <> "ds"%string) /\
  (ty = "wp"%string \/ ty = "ds"%string -> (2 <= n)%nat -> exists O, ogata_setup ty n k_min k_max lo hi = Ok O /\ make_ogata ty n k_min k_max lo hi = Ok O).
Proof. exact setup_iff. Qed.
Print Assumptions C84_setup.

Theorem C84_grid : forall ty n k_min k_max lo hi O, 0 < k_min -> k_min < k_max -> make_ogata ty n k_min k_max lo hi = Ok O ->
  (2 <= n)%nat /\ o_n O = n /\ o_lo O = lo /\ o_hi O = hi /\ (ty = "wp"%string /\ o_mu O = 0 \/ ty = "ds"%string /\ o_mu O = 2) /\
  forall i, o_rp O i = log_grid n (/ mid k_min k_max) (step n k_min k_max) i * exp (- step n k_min k_max).
Proof. exact make_shape. Qed.
Print Assumptions C84_grid.

Theorem C84_separations_increase : forall ty n k_min k_max lo hi O i, 0 < k_min -> k_min < k_max -> make_ogata ty n k_min k_max lo hi = Ok O ->
  o_rp O (S i) = o_rp O i * exp (step n k_min k_max) /\ o_rp O i < o_rp O (S i).
Proof. exact ogata_rp_step. Qed.
Print Assumptions C84_separations_increase.

Theorem C84_output_range : forall ht O n k p q, In q (ogata_evaluate ht O n k p) <->
  exists i, (i < o_n O)%nat /\ o_lo O < o_rp O i < o_hi O /\ q = (o_rp O i, ogata_xi ht O n k p i).
Proof. exact evaluate_in. Qed.
Print Assumptions C84_output_range.

(** With a transform without the factor r each value is the projected correlation at its own separation. *)
Theorem C84_plain_transform_gives_projection : forall ht O J K n k p i v, 0 < o_rp O i -> plain_law ht (o_mu O) J (K * o_rp O i) ->
  projected J (interp_lin n k p) K (o_rp O i) v -> ogata_xi ht O n k p i = v / (2 * PI).
Proof. exact xi_plain. Qed.
Print Assumptions C84_plain_transform_gives_projection.

(** With the transform the project requires it carries one power of k rp more. *)
Theorem C84_hankel_transform_value : forall ht O J K n k p i v, 0 < o_rp O i -> hankel_law ht (o_mu O) J (K * o_rp O i) ->
  projected_k J (interp_lin n k p) K (o_rp O i) v -> ogata_xi ht O n k p i = o_rp O i * v / (2 * PI).
Proof. exact xi_hankel. Qed.
Print Assumptions C84_hankel_transform_value.

Theorem C84_projection_refuted : exists O J ht v, make_ogata "wp" 2 1 (exp 1) 0 1 = Ok O /\ hankel_law ht (o_mu O) J (1 * o_rp O 0%nat) /\
  projected J (interp_lin 2 idx1 one1) 1 (o_rp O 0%nat) v /\ ogata_xi ht O 2 idx1 one1 0 <> v / (2 * PI).
Proof. exact not_projected. Qed.
Print Assumptions C84_projection_refuted.

Theorem C84_value_depends_on_separation_only : forall ht O O' n k p i i', o_mu O = o_mu O' -> o_rp O i = o_rp O' i' ->
  ogata_xi ht O n k p i = ogata_xi ht O' n k p i'.
Proof. exact xi_local. Qed.
Print Assumptions C84_value_depends_on_separation_only.

Theorem C84_bins : forall ht O J sections ns r, ogata_project ht O J sections ns = Ok r ->
  exists nsv nb, ns = Some nsv /\ bin_count J = Some nb /\ (1 <= nb)%nat /\ fst r = map (o_rp O) (o_kept O) /\ List.length (snd r) = nb /\
    forall i, (i < nb)%nat -> exists name s f, section_name J i = Some name /\ sections name = Some s /\ n_bin nsv (S i) = Some f /\ (1 <= s_nz s)%nat /\
      List.length (nth i (snd r) []) = List.length (fst r) /\
      forall x y, nth_error (o_kept O) x = Some y -> nth x (nth i (snd r) []) 0
        = simpson (s_nz s) (fun j => load_kernel nsv f (s_z s j) * ogata_xi ht O (s_nk s) (s_k s) (s_pk s j) y) (s_z s).
Proof. exact ogata_value. Qed.
Print Assumptions C84_bins.

Theorem C84_total : forall ht O J sections ns nb, bin_count J = Some nb -> (1 <= nb)%nat ->
  (forall i, (i < nb)%nat -> exists name s f, section_name J i = Some name /\ sections name = Some s /\ n_bin ns (S i) = Some f /\ (1 <= s_nz s)%nat) ->
  exists r, ogata_project ht O J sections (Some ns) = Ok r.
Proof. exact ogata_ok. Qed.
Print Assumptions C84_total.

Theorem C84_own_inputs : forall ht O J sections sections' ns ns' r r' i name,
  ogata_project ht O J sections (Some ns) = Ok r -> ogata_project ht O J sections' (Some ns') = Ok r' ->
  section_name J i = Some name -> sections name = sections' name -> n_size ns = n_size ns' -> n_z ns = n_z ns' -> n_bin ns (S i) = n_bin ns' (S i) ->
  nth i (snd r) [] = nth i (snd r') [].
Proof. exact ogata_own. Qed.
Print Assumptions C84_own_inputs.

Theorem C84_no_bins : forall ht O J sections ns, bin_count J = Some 0%nat -> ogata_project ht O J sections ns = Err "UnboundLocalError".
Proof. exact ogata_no_bins. Qed.
Print Assumptions C84_no_bins.

(** Constant power and kernel, two suffixed bins over two redshifts. *)
Example C84_case : exists O, make_ogata "wp" 2 1 (exp 1) 0 1 = Ok O /\ o_kept O = [0%nat; 1%nat] /\
  plain_law (plain_ht (fun _ => 1) (3 * o_rp O 1)) (o_mu O) (fun _ => 1) (3 * o_rp O 1) /\
  ogata_xi (plain_ht (fun _ => 1) (3 * o_rp O 1)) O 2 idx1 one1 1 = 3 ^ 2 / 2 / (2 * PI) /\
  exists r, ogata_project (plain_ht (fun _ => 1) 1) O
    {| j_type := "wp"; j_suffixes := Some ["a"; "b"]%string; j_input := "galaxy_power"; j_nbin := None |}
    (fun s => if orb (String.eqb s "galaxy_power_a") (String.eqb s "galaxy_power_b")
              then Some {| s_nz := 2; s_z := idx1; s_nk := 2; s_k := idx1; s_pk := fun _ => one1 |} else None)
    (Some {| n_size := 2; n_z := idx1; n_bin := fun _ => Some one1 |}) = Ok r.
Proof.
  destruct toy_ogata as (O & MK & R0 & R1 & KP). exists O. split; [exact MK|]. split; [exact KP|].
  split; [apply plain_ht_law|]. split.
  - apply (xi_plain _ O (fun _ => 1) 3); [rewrite R1; apply exp_pos|apply plain_ht_law|apply toy_projected].
  - apply (ogata_ok _ _ _ _ _ 2); [reflexivity|auto|]. intros i Hi.
    destruct i as [|[|i]]; [| |lia]; cbn.
    + eexists "galaxy_power_a"%string, _, _. do 3 (split; [reflexivity|]). cbn. lia.
    + eexists "galaxy_power_b"%string, _, _. do 3 (split; [reflexivity|]). cbn. lia.
Qed.
