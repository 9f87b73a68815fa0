(** A small data file, its options and a theory data block. *)
From Verif Require Import Base OptModel TpModel TpSpec TpFacts TpFacts2 TpFacts3 TpFacts4 TpFacts5 TpFacts6 TpFacts7 TpFacts8.
From Coq Require Import ZArith Ascii List Sorting.Sorted.
Import ListNotations.
Open Scope string_scope.

(** Two bins, one angle: the pairs 1-1, 1-2, 2-2. *)
Definition ex_sp (name : string) (a b c : R) : spectrum :=
  new_spectrum name [1%Z; 1%Z; 2%Z] [1%Z; 2%Z; 2%Z] [1%Z; 1%Z; 1%Z] [10; 10; 10] [a; b; c].
Definition unit_mat (n : nat) : mat := mkMat n (fun i j => if Nat.eqb i j then 1 else 0).
Definition ex_info : covinfo := new_covinfo ["xim"; "xip"] [3%nat; 3%nat] (unit_mat 6).
(** The file as read: xip before xim, the covariance header the other way round. *)
Definition ex_file (first second : string) : tpfile :=
  mkFile [ex_sp first 1 2 3; ex_sp second 4 5 6] (Some []) (Some ex_info) (Some (unit_mat 6)).
Lemma ex_sp_wf : forall n a b c, wf_sp (ex_sp n a b c).
Proof. intros. apply raw_wf. repeat split. Qed.
Lemma ex_wf : forall n1 n2, wf_file (ex_file n1 n2).
Proof.
  intros n1 n2. constructor.
  - cbn [f_spectra ex_file]. apply Forall_cons; [apply ex_sp_wf |]. apply Forall_cons; [apply ex_sp_wf | apply Forall_nil].
  - constructor.
  - intros m E. injection E as <-. split; [reflexivity | discriminate].
Qed.
Lemma ex_made : exists m, make_file [ex_sp "xip" 1 2 3; ex_sp "xim" 4 5 6] (Some []) (Some ex_info)
  = Ok (mkFile [mkSp "xip" [(1, 1)%Z; (1, 2)%Z; (2, 2)%Z] [1%Z; 1%Z; 2%Z] [1%Z; 2%Z; 2%Z] [1%Z; 1%Z; 1%Z] [10; 10; 10] [1; 2; 3] (Some [sqrt 1; sqrt 1; sqrt 1]);
                mkSp "xim" [(1, 1)%Z; (1, 2)%Z; (2, 2)%Z] [1%Z; 1%Z; 2%Z] [1%Z; 2%Z; 2%Z] [1%Z; 1%Z; 1%Z] [10; 10; 10] [4; 5; 6] (Some [sqrt 1; sqrt 1; sqrt 1])]
               (Some []) (Some ex_info) (Some m)).
Proof. eexists. reflexivity. Qed.

Definition ex_int (s : string) : option Z := if String.eqb s "1" then Some 1%Z else if String.eqb s "2" then Some 2%Z else None.
Definition ex_float (s : string) : option R := if String.eqb s "5" then Some 5 else if String.eqb s "20" then Some 20 else None.
Definition ex_items : list (string * string) :=
  [("use_stats", "xip xim"); ("cut_pair_xip", "2+2"); ("cut_bin_xim", "1"); ("data_file", "x.fits")].
Definition ex_items3 : list (string * string) := [("use_stats", "xip xim"); ("cut_cross", "True"); ("keep_ang_xip_1_1", "5 20"); ("keep_ang_xim", "5 20")].
Definition same_mat : mat -> res mat := fun m => Ok m.
Lemma ex_setup : exists s, setup ex_int ex_float same_mat default_ext ex_items (ex_file "xip" "xim") = Ok s /\
  o_data s = [1; 2; 4; 6] /\ o_stats s = ["xip"; "xim"] /\
  o_args s = mkArgs false [("xip", 2%Z, 2%Z)] [("xim", [1%Z])] [] [].
Proof.
  assert (H : match setup ex_int ex_float same_mat default_ext ex_items (ex_file "xip" "xim") with
              | Ok s => Some (o_data s, o_stats s, o_args s) | Err _ => None end
              = Some ([1; 2; 4; 6], ["xip"; "xim"], mkArgs false [("xip", 2%Z, 2%Z)] [("xim", [1%Z])] [] []))
    by (vm_compute; reflexivity).
  destruct (setup _ _ _ _ _ _) as [s | e]; [| discriminate H]. exists s. split; [reflexivity |].
  injection H as H1 H2 H3. auto.
Qed.
Lemma ex_parse : make_args ex_int ex_float default_ext ex_items3 =
  Ok (Some ["xip"; "xim"], mkArgs true [] [] [(("xip", 1%Z, 1%Z), (5, 20))] [("xim", (5, 20))]).
Proof. reflexivity. Qed.

(** The theory: the same numbers under the same labels. *)
Definition ex_block : block :=
  mkBlock (fun s => mem s ["shear_xi_plus"; "shear_xi_minus"])
    (fun s n =>
       if String.eqb n "theta" then Some [10] else
       let k := if String.eqb s "shear_xi_plus" then 0 else 3 in
       if String.eqb n "bin_1_1" then Some [1 + k] else
       if String.eqb n "bin_2_1" then Some [2 + k] else
       if String.eqb n "bin_2_2" then Some [3 + k] else None).
Lemma ex_theory : forall s, o_stats s = ["xip"; "xim"] -> o_args s = mkArgs false [("xip", 2%Z, 2%Z)] [("xim", [1%Z])] [] [] ->
  theory_vector ex_block default_sec default_ext s = Ok [1 + 0; 2 + 0; 1 + 3; 3 + 3].
Proof. intros s E1 E2. unfold theory_vector. rewrite E1, E2. reflexivity. Qed.
Lemma ex_theory_file : exists g, theory_file ex_block default_sec default_ext ["xip"; "xim"] = Ok g /\ wf_file g /\
  points g = filter (chosen_b ["xip"; "xim"]) (points (ex_file "xip" "xim")).
Proof.
  eexists. split; [reflexivity |]. split; [| reflexivity]. constructor; cbn [f_spectra obs_list f_nobs f_cov].
  - apply Forall_cons; [apply raw_wf; repeat split |]. apply Forall_cons; [apply raw_wf; repeat split | apply Forall_nil].
  - constructor.
  - discriminate.
Qed.
Lemma unit_pos : forall n, pos_def (unit_mat n).
Proof.
  intros n x (i & Hi & Hx). cbn [m_n unit_mat m_at] in *.
  replace (sumR n (fun i => sumR n (fun j => x i * (if Nat.eqb i j then 1 else 0) * x j))) with (sumR n (fun i => x i * x i)).
  - assert (G : forall m, (forall k, (k < m)%nat -> 0 <= x k * x k) -> (i < m)%nat -> 0 < sumR m (fun i => x i * x i)).
    { induction m as [| m IH]; intros H L; [lia |]. cbn. destruct (Nat.eq_dec i m) as [-> | N].
      - assert (0 <= sumR m (fun i => x i * x i)) by (apply QuadFacts.sumR_nonneg; intros; nra). nra.
      - assert (0 < sumR m (fun i => x i * x i)) by (apply IH; [intros; nra | lia]). nra. }
    apply G; [intros; nra | exact Hi].
  - apply QuadFacts.sumR_ext. intros k Hk. transitivity (sumR n (fun j => kron k j * (x k * x j))); [symmetry; now apply (sum_kron n k (fun j => x k * x j)) |].
    apply QuadFacts.sumR_ext. intros j _. unfold kron. ring.
Qed.
Lemma unit_inverse : forall n, inverse_of (unit_mat n) (unit_mat n).
Proof.
  intro n. split; [reflexivity |]. intros a b Ha Hb. cbn [m_n unit_mat m_at] in *.
  exact (sum_kron n a (fun k => if Nat.eqb k b then 1 else 0) Ha).
Qed.
