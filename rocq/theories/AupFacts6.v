(** Lemmas about add_and_upsample.py: the combination against that of src/onepower/add.py. *)
From Coq Require Import ZArith Lia Lra.
From Verif Require Import Base Interp InterpFacts HodModel PkModel AddModel AddSpec AddFacts AddFacts2.
From Verif Require Import FftModel RsModel PipeModel PipeFacts OptModel ChainModel PredModel PredSpec PredFacts2 AupModel AupSpec AupSpec2 AupFacts AupFacts2 AupFacts3 AupFacts4 AupFacts5.
Open Scope R_scope.

Lemma extrapolate_value A (u : uparams A) o b z k p ze ke zf ff beyond P j i : good_axes z k -> same_request u ze ke zf ff beyond ->
  o_nz A o = List.length z -> (forall j, (j < List.length z)%nat -> o_z A o j = nth j z 0) ->
  o_nk A o = List.length k -> (forall i, (i < List.length k)%nat -> o_k A o i = nth i k 0) ->
  (forall j i, (j < List.length z)%nat -> (i < List.length k)%nat -> P b j i = cell p j i) ->
  (j < List.length ze)%nat -> (i < List.length ke)%nat ->
  AddModel.extrapolate u o P b j i = value (mode beyond) z k (cell p) (nth j ze 0) (nth i ke 0).
Proof.
  intros (Rz & Rk & Pk) (U1 & U2 & U3 & U4 & _ & _ & U7) N1 Z N2 K E Hj Hi. unfold AddModel.extrapolate, value. rewrite N1, N2, U7, (U2 j Hj), (U4 i Hi).
  change (if beyond then Extrapolate else FillValue 0) with (mode beyond). cbn [interp1d].
  rewrite (interp_ext_x (List.length k) (fun l => log10 (o_k A o l)) (fun l => log10 (at_ k l))); [|apply Rk|intros a Ha; unfold at_; now rewrite K].
  apply interp_ext; [apply Rk|]. intros l Hl.
  assert (X : forall y q, interp1d (mode beyond) (List.length z) (o_z A o) y q = interp1d (mode beyond) (List.length z) (at_ z) y q).
  { intros y q. destruct Rz as [N _]. destruct beyond; cbn [mode interp1d].
    - apply interp_ext_x; [exact N|]. intros a Ha. now apply Z.
    - rewrite (Z 0%nat), (Z (List.length z - 1)%nat) by lia. unfold at_ at 1 2. rewrite (interp_ext_x (List.length z) (o_z A o) (at_ z)); [reflexivity|exact N|]. intros a Ha. now apply Z. }
  rewrite X. apply interp1d_ext; [apply Rz|]. intros a Ha. now apply E.
Qed.
(** What add.py answers: each population resampled, then mixed with the fraction at the output. *)
Lemma add_answer A (u : uparams A) heap r1 r2 s bin ze ke zf ff beyond z1 k1 p1 z2 k2 p2 :
  same_request u ze ke zf ff beyond -> first_is u heap r1 -> second_is u heap r1 r2 -> rising zf -> List.length ff = List.length zf ->
  population A (heap r1) s bin z1 k1 p1 -> population A (heap r2) s bin z2 k2 p2 -> good_axes z1 k1 -> good_axes z2 k2 -> (0 < List.length ze)%nat ->
  exists v, answer u heap (mode_name s) "tot" = Ok v /\ forall j i, (j < List.length ze)%nat -> (i < List.length ke)%nat ->
    r_val v bin j i = mixed s (line zf ff (nth j ze 0)) (value (mode beyond) z1 k1 (cell p1) (nth j ze 0) (nth i ke 0)) (value (mode beyond) z2 k2 (cell p2) (nth j ze 0) (nth i ke 0)).
Proof.
  intros U F S RF LF (N1 & Z1 & M1 & K1 & P1 & O1 & E1) (N2 & Z2 & M2 & K2 & P2 & O2 & E2) G1 G2 L.
  assert (X : forall r P, o_spec A (heap r) (mode_name s) = Ok P -> exists v, answer (single r u) heap (mode_name s) "tot" = Ok v /\
     forall b j i, (j < u_nz u)%nat -> r_val v b j i = AddModel.extrapolate u (heap r) (pk_tot P) b j i).
  { intros r P O. assert (Y : exists v, answer (single r u) heap (mode_name s) "tot" = Ok v).
    { rewrite asked_pure. unfold pure. change (power_1_value (single r u)) with (Ok (Shared (A:=A) r)). cbn [bind deref]. rewrite O. cbn [bind component String.eqb].
      change (component "tot" P) with (Ok (pk_tot P)). cbn [bind]. change (power_2_value (single r u) (heap r)) with (Ok (@None (obj A))). cbn [bind].
      destruct (String.eqb (mode_name s) "mm"); [eexists; reflexivity|]. change (frac_1_value (single r u)) with (Ok (u_nz u, fun _ : nat => 1)). cbn [bind]. unfold add_spectra. cbn [fst single u_nz].
      rewrite bcast_id. cbn [bind]. eexists. reflexivity. }
    destruct Y as (v & Y). exists v. split; [exact Y|]. destruct (single_value u heap r (mode_name s) "tot" v Y) as (q & Q & _ & V). unfold reading in Q. rewrite O in Q. cbn [bind] in Q.
    change (component "tot" P) with (Ok (pk_tot P)) in Q. injection Q as <-. exact V. }
  destruct (X r1 P1 O1) as (v1 & A1 & V1). destruct (X r2 P2 O2) as (v2 & A2 & V2).
  assert (FR : forall j, (j < List.length ze)%nat -> fraction_is u j (line zf ff (nth j ze 0))).
  { intros j Hj. destruct U as (U1 & U2 & _ & _ & U5 & U6 & _). unfold fraction_is. rewrite U6. exists (fun i => nth i zf 0). split; [exact U5|]. rewrite (U2 j Hj). reflexivity. }
  pose proof (proj1 U) as U1.
  destruct (AddFacts2.mixture u heap r1 r2 (mode_name s) "tot" v1 v2 0%nat _ F S (FR 0%nat L) ltac:(rewrite U1; exact L) A1 A2) as (v & Av & _). exists v. split; [exact Av|].
  intros j i Hj Hi. destruct (AddFacts2.mixture u heap r1 r2 (mode_name s) "tot" v1 v2 j _ F S (FR j Hj) ltac:(rewrite U1; exact Hj) A1 A2) as (v' & Av' & _ & _ & W1 & W2).
  rewrite Av in Av'. injection Av' as <-.
  rewrite <- (extrapolate_value A u (heap r1) bin z1 k1 p1 ze ke zf ff beyond (pk_tot P1) j i G1 U N1 Z1 M1 K1 E1 Hj Hi).
  rewrite <- (extrapolate_value A u (heap r2) bin z2 k2 p2 ze ke zf ff beyond (pk_tot P2) j i G2 U N2 Z2 M2 K2 E2 Hj Hi).
  rewrite <- V1, <- V2 by (rewrite U1; exact Hj). destruct s; unfold mixed, both_tracers, mode_name in *.
  - rewrite W2 by discriminate. ring.
  - apply W1. now left.
  - apply W1. now right.
  - rewrite W2 by discriminate. ring.
  - rewrite W2 by discriminate. ring.
Qed.
Lemma interp_mixed s n x f r b q : (2 <= n)%nat -> interp_lin n x (fun i => mixed s f (r i) (b i)) q = mixed s f (interp_lin n x r q) (interp_lin n x b q).
Proof.
  intros N. unfold mixed. destruct (both_tracers s); [apply (interp_lincomb n x (f * f) ((1 - f) * (1 - f)))|apply (interp_lincomb n x f (1 - f))].
Qed.
(** Mixing first and mixing last agree at the redshifts of the table and for a constant fraction. *)
Lemma mix_order s beyond z k p q fr F zq kq : good_axes z k ->
  (exists j, (j < List.length z)%nat /\ zq = nth j z 0 /\ F = fr j) \/ (forall j, (j < List.length z)%nat -> fr j = F) ->
  value (mode beyond) z k (fun j i => mixed s (fr j) (cell p j i) (cell q j i)) zq kq
  = mixed s F (value (mode beyond) z k (cell p) zq kq) (value (mode beyond) z k (cell q) zq kq).
Proof.
  intros (Rz & Rk & Pk) [(j & Hj & -> & ->)|H].
  - rewrite !value_row; try assumption; try apply Rk. rewrite interp_mixed by apply Rk. reflexivity.
  - rewrite (value_ext _ z k _ (fun j i => mixed s F (cell p j i) (cell q j i))) by (try apply Rz; try apply Rk; intros j i Hj Hi; now rewrite (H j Hj)).
    unfold value. cbn [interp1d]. rewrite <- interp_mixed by apply Rk. apply interp_ext; [apply Rk|]. intros i Hi.
    destruct beyond; cbn [mode interp1d]; [apply interp_mixed; apply Rz|].
    destruct (Rlt_dec _ _); [unfold mixed; destruct (both_tracers s); ring|]. destruct (Rlt_dec _ _); [unfold mixed; destruct (both_tracers s); ring|]. apply interp_mixed; apply Rz.
Qed.
Lemma line_const zf ff F z : rising zf -> List.length ff = List.length zf -> (forall x, In x ff -> x = F) -> line zf ff z = F.
Proof.
  intros Rf Lf H. unfold line. rewrite (interp_ext _ _ _ (fun _ => F)); [apply interp_const; [apply Rf|now apply rising_incr]|apply Rf|]. intros i Hi. apply H. unfold at_. apply nth_In. lia.
Qed.
Lemma agrees over c b b' s n oz i ze ke z k p q zf ff (A : api) (u : uparams A) heap r1 r2 bin :
  aup_execute over c b = (b', Ok tt) -> grid_of b ze ke -> option_of c s = adds -> a_fred c = Some (zf, ff) -> rising zf -> List.length ff = List.length zf ->
  sample b (a_hred c) n oz -> (1 <= i <= Z.to_nat n)%nat -> has_power b (name_of s ++ a_red c ++ bin_name n i) z k p ->
  b (name_of s ++ a_blue c ++ bin_name n i)%string "p_k"%string = Some (BTab q) -> shaped z k q ->
  same_request u ze ke zf ff (negb (Z.eqb oz 0)) -> first_is u heap r1 -> second_is u heap r1 r2 ->
  population A (heap r1) s bin z k p -> population A (heap r2) s bin z k q -> (0 < List.length ze)%nat ->
  exists v t, answer u heap (mode_name s) "tot" = Ok v /\ b' (name_of s ++ bin_name n i)%string "p_k"%string = Some (BTab t) /\
    forall j l, (j < List.length ze)%nat -> (l < List.length ke)%nat -> In (nth j ze 0) z \/ (exists F, forall x, In x ff -> x = F) -> cell t j l = r_val v bin j l.
Proof.
  intros H G O EF RF LF S Hi P Q SQ U F1 F2 P1 P2 L. pose proof P as (_ & _ & _ & D & _).
  destruct (add_answer A u heap r1 r2 s bin ze ke zf ff (negb (Z.eqb oz 0)) z k p z k q U F1 F2 RF LF P1 P2 D D L) as (v & Av & V).
  assert (FR : forall j, (j < List.length z)%nat -> fraction_at c (nth j z 0) (line zf ff (nth j z 0))).
  { intros j Hj. exists zf, ff. split; [exact EF|]. now apply line_value. }
  destruct (combination over c b b' s n oz i ze ke z k p q (fun j => line zf ff (nth j z 0)) H G O (ex_intro _ zf (ex_intro _ ff (conj EF (conj RF LF)))) S Hi P Q SQ FR) as (_ & _ & t & T & _ & W).
  exists v, t. split; [exact Av|]. split; [exact T|]. intros j l Hj Hl C. rewrite (V j l Hj Hl). specialize (W j l Hj Hl). apply resampled_only in W; [|exact D]. rewrite W.
  apply mix_order; [exact D|]. destruct C as [C|(F & C)].
  - left. destruct (In_nth z _ 0 C) as (a & Ha & E). exists a. rewrite E. repeat split. exact Ha.
  - right. intros a Ha. rewrite !(line_const zf ff F) by assumption. reflexivity.
Qed.
