(** Proofs about the data-block side of the real-space modules. *)
From Coq Require Import ZArith Ascii Decimal DecimalString.
From Verif Require Import Base Quad Interp FftModel RsModel RsSpec RsFacts2 OgataModel PipeModel PipeFacts OptModel ChainModel ChainSpec.
Open Scope R_scope.

(** ** Blocks *)
Lemma bput_same b s n v : bput b s n v s n = Some v.
Proof. unfold bput. now rewrite !String.eqb_refl. Qed.
Lemma bput_other b s n v s' n' : s' <> s \/ n' <> n -> bput b s n v s' n' = b s' n'.
Proof.
  intro H. unfold bput. destruct (String.eqb_spec s s') as [->|N]; [|reflexivity]. destruct (String.eqb_spec n n') as [->|M]; [|reflexivity].
  destruct H; congruence.
Qed.
Lemma bin_key_nth i : bin_key i = nth_bin i.
Proof. reflexivity. Qed.
Lemma bin_key_inj i j : bin_key i = bin_key j -> i = j.
Proof. unfold bin_key. intro H. cbn in H. injection H as H. now apply dec_inj. Qed.
Lemma bin_key_not i n : match n with String "b"%char _ => False | _ => True end -> bin_key i <> n.
Proof. intros H E. subst n. exact H. Qed.
Ltac not_bin := intro; match goal with H : bin_key _ = _ |- _ => revert H | H : _ = bin_key _ |- _ => symmetry in H; revert H end; apply bin_key_not; exact I.

(** Agreement except for the bins written so far. *)
Definition agree (out : string) (i : nat) (b b2 : dblock) : Prop :=
  forall s k, s <> out \/ (forall j, (j < i)%nat -> k <> bin_key (j + 1)) -> b2 s k = b s k.
Lemma agree_refl out i b : agree out i b b.
Proof. intros s k _. reflexivity. Qed.
Lemma agree_put out i b b2 v : agree out i b b2 -> agree out (S i) b (bput b2 out (bin_key (i + 1)) v).
Proof.
  intros A s k H. rewrite bput_other.
  - apply A. destruct H as [H|H]; [now left|]. right. intros j L. apply H. lia.
  - destruct H as [H|H]; [now left|]. right. apply H. lia.
Qed.
Lemma agree_key out i b b2 s k : agree out i b b2 -> match k with String "b"%char _ => False | _ => True end -> b2 s k = b s k.
Proof. intros A H. apply A. right. intros j _ E. symmetry in E. now apply bin_key_not in E. Qed.
Lemma agree_read_pk out i b b2 s : agree out i b b2 -> read_pk b2 s = read_pk b s.
Proof. intro A. unfold read_pk. now rewrite !(agree_key out i b b2 s) by (assumption || exact I). Qed.
Lemma agree_bin out i b b2 s : agree out i b b2 -> b2 s (bin_key (S i)) = b s (bin_key (S i)).
Proof. intro A. apply A. right. intros j L E. apply bin_key_inj in E. lia. Qed.
Lemma agree_job out i b b2 p : agree out i b b2 -> job_of p b2 = job_of p b.
Proof. intro A. unfold job_of. now rewrite (agree_key out i b b2 (q_sample p) "nbin") by (assumption || exact I). Qed.

(** ** The loop *)
Section Loop.
  Variable bin : dblock -> nat -> res (list R * list R).
  Variable out : string.
  Variable b : dblock.
  Hypothesis local : forall i b2, agree out i b b2 -> bin b2 i = bin b i.
  Lemma loop_spec n : forall i b2 rp b' r, agree out i b b2 -> bins_loop bin out (seq i n) b2 rp = (b', r) ->
    agree out (i + n) b b' /\
    (forall j, (j < i)%nat -> b' out (bin_key (j + 1)) = b2 out (bin_key (j + 1))) /\
    match r with
    | Ok rp' => (forall j, (i <= j < i + n)%nat -> exists v, bin b j = Ok v /\ b' out (bin_key (j + 1)) = Some (BArr (snd v))) /\
                (n = 0%nat -> rp' = rp) /\ (forall m, n = S m -> exists v, bin b (i + m)%nat = Ok v /\ rp' = Some (fst v))
    | Err e => exists j, (i <= j < i + n)%nat /\ bin b j = Err e /\ forall j', (i <= j' < j)%nat -> exists v, bin b j' = Ok v
    end.
  Proof.
    induction n as [|n IH]; intros i b2 rp b' r A H; cbn [seq bins_loop] in H.
    - injection H as <- <-. rewrite Nat.add_0_r. split; [exact A|]. split; [reflexivity|]. split; [intros; lia|]. split; [reflexivity|discriminate].
    - rewrite (local i b2 A) in H. destruct (bin b i) as [v|e] eqn:V.
      + destruct (IH (S i) _ _ _ _ (agree_put _ _ _ _ (BArr (snd v)) A) H) as (A' & K & Q).
        replace (i + S n)%nat with (S i + n)%nat by lia. split; [exact A'|]. split.
        * intros j L. rewrite (K j) by lia. apply bput_other. right. intro E. apply bin_key_inj in E. lia.
        * destruct r as [rp'|e].
          -- destruct Q as (Q1 & Q2 & Q3). split; [|split].
             ++ intros j L. destruct (Nat.eq_dec j i) as [->|N]; [|apply Q1; lia]. exists v. split; [exact V|]. rewrite (K i) by lia. apply bput_same.
             ++ discriminate.
             ++ intros m E. injection E as <-. destruct n as [|m'].
                ** exists v. rewrite Nat.add_0_r. split; [exact V|]. now apply Q2.
                ** destruct (Q3 m' eq_refl) as (w & W & E). exists w. replace (i + S m')%nat with (S i + m')%nat by lia. now split.
          -- destruct Q as (j & L & E & P). exists j. split; [lia|]. split; [exact E|]. intros j' L'.
             destruct (Nat.eq_dec j' i) as [->|N]; [eauto|apply P; lia].
      + injection H as <- <-. split; [|split; [reflexivity|]].
        * intros s k D. apply A. destruct D as [D|D]; [now left|right]. intros j L. apply D. lia.
        * exists i. split; [lia|]. split; [exact V|]. intros; lia.
  Qed.
End Loop.

(** ** The two kinds of bin read only what the loop leaves alone *)
Lemma one_bin_local T J rho sec sec2 ns ns2 i : (forall s, sec2 s = sec s) -> n_size ns2 = n_size ns -> n_z ns2 = n_z ns -> n_bin ns2 (S i) = n_bin ns (S i) ->
  one_bin T J rho sec2 ns2 i = one_bin T J rho sec ns i.
Proof.
  intros S N Z B. unfold one_bin, load_kernel. rewrite N, Z, B.
  destruct (match j_suffixes J with Some l => _ | None => _ end) as [nm|]; [|reflexivity]. cbn [bind]. now rewrite S.
Qed.
Lemma ogata_bin_local ht O J sec sec2 ns ns2 i : (forall s, sec2 s = sec s) -> n_size ns2 = n_size ns -> n_z ns2 = n_z ns -> n_bin ns2 (S i) = n_bin ns (S i) ->
  ogata_bin ht O J sec2 ns2 i = ogata_bin ht O J sec ns i.
Proof.
  intros S N Z B. unfold ogata_bin, load_kernel. rewrite N, Z, B.
  destruct (match j_suffixes J with Some l => _ | None => _ end) as [nm|]; [|reflexivity]. cbn [bind]. now rewrite S.
Qed.
Lemma read_nz_local out i b b2 s : agree out i b b2 ->
  match read_nz b2 s, read_nz b s with
  | Some n2, Some n => n_size n2 = n_size n /\ n_z n2 = n_z n /\ n_bin n2 (S i) = n_bin n (S i)
  | None, None => True
  | _, _ => False
  end.
Proof.
  intro A. unfold read_nz. rewrite (agree_key out i b b2 s "z" A I). destruct (b s "z"%string) as [[]|]; try exact I.
  cbn [n_size n_z n_bin]. split; [reflexivity|]. split; [reflexivity|]. now rewrite (agree_bin out i b b2 s A).
Qed.
Lemma fft_local T p rho out b i b2 : agree out i b b2 -> fft_bin T p rho b2 i = fft_bin T p rho b i.
Proof.
  intro A. unfold fft_bin, need_nz. destruct (mean_density (q_type p) rho) as [d|]; [|reflexivity]. cbn [bind].
  pose proof (read_nz_local out i b b2 (q_sample p) A) as H. rewrite (agree_job out i b b2 p A).
  destruct (read_nz b2 (q_sample p)) as [n2|], (read_nz b (q_sample p)) as [n|]; try destruct H as (H1 & H2 & H3); try reflexivity; try contradiction.
  cbn [bind]. apply one_bin_local; try assumption. intro s. now apply (agree_read_pk out i).
Qed.
Lemma quad_local ht O p out b i b2 : agree out i b b2 -> quad_bin ht O p b2 i = quad_bin ht O p b i.
Proof.
  intro A. unfold quad_bin, need_nz.
  pose proof (read_nz_local out i b b2 (q_sample p) A) as H. rewrite (agree_job out i b b2 p A).
  destruct (read_nz b2 (q_sample p)) as [n2|], (read_nz b (q_sample p)) as [n|]; try destruct H as (H1 & H2 & H3); try reflexivity; try contradiction.
  cbn [bind]. apply ogata_bin_local; try assumption. intro s. now apply (agree_read_pk out i).
Qed.

(** ** The whole call *)
Lemma header_not_b k : In k header -> match k with String "b"%char _ => False | _ => True end.
Proof. intro I. cbn in I. repeat (destruct I as [<-|I]; [exact Logic.I|]). destruct I. Qed.
Lemma agree_only out n b b1 b2 : agree out n b b1 -> (forall s k, s <> out \/ ~ In k header -> b2 s k = b1 s k) -> only_section out n b b2.
Proof.
  intros A H s k [D|[D1 D2]].
  - rewrite H by now left. apply A. now left.
  - rewrite H by now right. apply A. right. intros j L. apply D2. lia.
Qed.
Lemma put_header b out k v s n : In k header -> s <> out \/ ~ In n header -> bput b out k v s n = b s n.
Proof. intros I D. apply bput_other. destruct D as [D|D]; [now left|]. right. intros ->. contradiction. Qed.
Lemma put_header_bin b out k v i : In k header -> bput b out k v out (bin_key i) = b out (bin_key i).
Proof. intro I. apply bput_other. right. apply bin_key_not, header_not_b, I. Qed.

Section Call.
  Variable bin : dblock -> nat -> res (list R * list R).
  Variable p : proj.
  Variable b : dblock.
  Variable name : string.
  Hypothesis local : forall i b2, agree (q_output p) i b b2 -> bin b2 i = bin b i.
  Theorem call_ok b' : project_block bin p name b = (b', Ok tt) ->
    exists nb rp, read_count p b = Ok nb /\ (0 < nb)%Z /\
      (forall i, (i < Z.to_nat nb)%nat -> exists v, bin b i = Ok v /\ b' (q_output p) (nth_bin (S i)) = Some (BArr (snd v))) /\
      (exists v, bin b (Z.to_nat nb - 1)%nat = Ok v /\ rp = fst v) /\
      b' (q_output p) "nbin"%string = Some (BInt nb) /\ b' (q_output p) "sample"%string = Some (BStr (q_sample p)) /\
      b' (q_output p) "rp"%string = Some (BArr rp) /\ b' (q_output p) "sep_name"%string = Some (BStr "rp") /\
      b' (q_output p) "save_name"%string = Some (BStr name) /\ only_section (q_output p) (Z.to_nat nb) b b'.
  Proof.
    unfold project_block. destruct (read_count p b) as [nb|]; [|discriminate].
    destruct (bins_loop bin (q_output p) (seq 0 (Z.to_nat nb)) b None) as [b1 [rp|]] eqn:L; [|discriminate].
    destruct rp as [rp|]; [|discriminate]. intro H. injection H as <-.
    destruct (loop_spec bin (q_output p) b local _ _ _ _ _ _ (agree_refl _ _ _) L) as (A & _ & Q1 & Q2 & Q3). cbn [Nat.add] in A.
    assert (P : (0 < nb)%Z).
    { destruct (Z_lt_le_dec 0 nb) as [P|P]; [exact P|]. assert (E : Z.to_nat nb = 0%nat) by lia. specialize (Q2 E). discriminate. }
    exists nb, rp. split; [reflexivity|]. split; [exact P|]. split; [|split; [|split; [|split; [|split; [|split; [|split]]]]]].
    - intros i Li. destruct (Q1 i ltac:(lia)) as (v & V & E). exists v. split; [exact V|]. rewrite <- bin_key_nth.
      rewrite !put_header_bin by (cbn; tauto). now replace (S i) with (i + 1)%nat by lia.
    - destruct (Q3 (Z.to_nat nb - 1)%nat ltac:(lia)) as (v & V & E). exists v. cbn [Nat.add] in V. split; [exact V|congruence].
    - rewrite !bput_other by (right; discriminate). apply bput_same.
    - rewrite !bput_other by (right; discriminate). apply bput_same.
    - rewrite !bput_other by (right; discriminate). apply bput_same.
    - rewrite !bput_other by (right; discriminate). apply bput_same.
    - apply bput_same.
    - apply (agree_only _ _ _ b1 _ A). intros s k D. now rewrite !put_header by (assumption || (cbn; tauto)).
  Qed.
  Theorem call_total nb : read_count p b = Ok nb -> (0 < nb)%Z -> (forall i, (i < Z.to_nat nb)%nat -> exists v, bin b i = Ok v) ->
    exists b', project_block bin p name b = (b', Ok tt).
  Proof.
    intros C P A. unfold project_block. rewrite C.
    destruct (bins_loop bin (q_output p) (seq 0 (Z.to_nat nb)) b None) as [b1 r] eqn:L.
    destruct (loop_spec bin (q_output p) b local _ _ _ _ _ _ (agree_refl _ _ _) L) as (_ & _ & Q). destruct r as [rp|e].
    - destruct Q as (_ & _ & Q3). destruct (Q3 (Z.to_nat nb - 1)%nat ltac:(lia)) as (v & _ & ->). eexists. reflexivity.
    - destruct Q as (j & Lj & E & _). destruct (A j ltac:(lia)) as (v & V). congruence.
  Qed.
  Theorem call_fails b' e : project_block bin p name b = (b', Err e) ->
    (forall s k, s <> q_output p -> b' s k = b s k) /\
    (read_count p b = Err e \/ exists nb, read_count p b = Ok nb /\
       (((nb <= 0)%Z /\ e = "UnboundLocalError"%string) \/
        (exists i, (i < Z.to_nat nb)%nat /\ bin b i = Err e /\ forall j, (j < i)%nat -> exists v, bin b j = Ok v))).
  Proof.
    unfold project_block. destruct (read_count p b) as [nb|e0]; [|intro H; injection H as <- <-; split; [reflexivity|now left]].
    destruct (bins_loop bin (q_output p) (seq 0 (Z.to_nat nb)) b None) as [b1 r] eqn:L.
    destruct (loop_spec bin (q_output p) b local _ _ _ _ _ _ (agree_refl _ _ _) L) as (A & _ & Q).
    destruct r as [[rp|]|e1]; intro H; [discriminate| |].
    - injection H as <- <-. split.
      + intros s k D. rewrite !bput_other by now left. apply A. now left.
      + right. exists nb. split; [reflexivity|]. left. split; [|reflexivity]. destruct Q as (_ & _ & Q3).
        destruct (Z_lt_le_dec 0 nb) as [P|P]; [|exact P]. destruct (Q3 (Z.to_nat nb - 1)%nat ltac:(lia)) as (v & _ & E). discriminate.
    - injection H as <- <-. split; [intros s k D; apply A; now left|]. right. exists nb. split; [reflexivity|]. right.
      destruct Q as (j & Lj & E & P). exists j. split; [lia|]. split; [exact E|]. intros j' Lj'. apply P. lia.
  Qed.
End Call.
