(** Values of predict_observable.py. *)
From Coq Require Import ZArith.
From Verif Require Import Base Spec Quad Interp QuadFacts InterpFacts BaseFacts FftModel RsModel PipeModel PipeFacts OptModel ChainModel ChainFacts
  PredModel PredSpec PredFacts.
Open Scope R_scope.

(** ** Tables *)
Lemma rising_incr x : rising x -> incr (List.length x) (at_ x).
Proof. intros [_ H] i Hi. apply H, Hi. Qed.
Lemma says_value x y q : rising x -> says x y q (row_interp x y q).
Proof.
  intros Rx. pose proof (rising_incr x Rx) as I. destruct Rx as [N _]. unfold says, row_interp.
  destruct (Rlt_dec q (at_ x 0)) as [L|L]; [left; split; [now left|apply interp1d_outside; now left]|].
  destruct (Rlt_dec (at_ x (List.length x - 1)) q) as [U|U]; [left; split; [now right|apply interp1d_outside; now right]|].
  right. rewrite interp1d_inside by lra.
  assert (B : exists j, (S j < List.length x)%nat /\ at_ x j <= q <= at_ x (S j)).
  { destruct (bracket (List.length x) (at_ x) q I ltac:(lia)) as [H|[H|[j [Hj [Ha Hb]]]]].
    - exists 0%nat. split; [lia|]. pose proof (I 0%nat ltac:(lia)). lra.
    - lra.
    - exists j. split; [exact Hj|lra]. }
  destruct B as (j & Hj & Hq). exists j. split; [exact Hj|]. split; [exact Hq|].
  rewrite (interp_seg _ _ _ _ j) by (try apply I; try exact Hj; lra || lia). pose proof (I j Hj). unfold at_ in *. field. lra.
Qed.
Lemma says_only x y q v : rising x -> says x y q v -> v = row_interp x y q.
Proof.
  intros Rx. pose proof (rising_incr x Rx) as I. destruct Rx as [N _]. unfold says, row_interp. intros [[O ->]|(j & Hj & Hq & ->)].
  - rewrite interp1d_outside; [reflexivity|exact O].
  - pose proof (incr_le _ _ 0 j I ltac:(lia) ltac:(lia)) as A. pose proof (incr_le _ _ (S j) (List.length x - 1) I ltac:(lia) ltac:(lia)) as B.
    pose proof (I j Hj) as C. unfold at_ in A, B, C. rewrite interp1d_inside by (unfold at_; lra). rewrite (interp_seg _ _ _ _ j) by (try apply I; try exact Hj; unfold at_; lra || lia).
    unfold at_. field. lra.
Qed.

(** ** Reading *)
Lemma load_flat b sec s x y : has_flat b sec s x y -> load_obs b sec s = Ok (Flat (row_interp x y)).
Proof.
  intros (A & B & C & D). unfold load_obs, array, obs_key.
  change ("obs_val" ++ "_" ++ s)%string with ("obs_val_" ++ s)%string. change ("obs_func" ++ "_" ++ s)%string with ("obs_func_" ++ s)%string.
  change ("z_bin" ++ "_" ++ s)%string with ("z_bin_" ++ s)%string. rewrite A, B, C. cbn [bind]. rewrite D, Nat.eqb_refl. reflexivity.
Qed.
Lemma load_table b sec s z x t : has_table b sec s z x t -> load_obs b sec s = Ok (ByZ z (map (row_interp x) t)).
Proof.
  intros (A & B & C & _ & D). unfold load_obs, array, obs_key.
  change ("obs_val" ++ "_" ++ s)%string with ("obs_val_" ++ s)%string. change ("obs_func" ++ "_" ++ s)%string with ("obs_func_" ++ s)%string.
  change ("z_bin" ++ "_" ++ s)%string with ("z_bin_" ++ s)%string. rewrite A, B, C. cbn [bind].
  replace (forallb _ t) with true; [reflexivity|]. symmetry. apply forallb_forall. intros r I. rewrite (D r I). apply Nat.eqb_refl.
Qed.
Lemma load_nz b sec i z zn nn : has_nz b sec i zn nn -> load_redshift b sec i z = Ok (map (row_interp zn nn) z).
Proof.
  intros (A & B & C). unfold load_redshift, array, bin_key. rewrite A, B. cbn [bind]. rewrite C, Nat.eqb_refl. reflexivity.
Qed.
Lemma load_missing b sec s : b sec ("obs_val_" ++ s)%string = None -> load_obs b sec s = Err "BlockNameNotFound".
Proof. intro A. unfold load_obs, array, obs_key. change ("obs_val" ++ "_" ++ s)%string with ("obs_val_" ++ s)%string. rewrite A. reflexivity. Qed.

Lemma run_none mk c b run : p_cosmo c = None -> run_cosmo mk c b = Ok run -> run = None.
Proof. unfold run_cosmo. intros -> E. now inversion E. Qed.
Lemma bin_none zd c b i v run : p_cosmo c = None -> pred_bin zd run c b i = Ok v -> raw_bin zd c b i = Ok v.
Proof. unfold pred_bin. intros ->. destruct (raw_bin zd c b i); cbn; intro H; inversion H; reflexivity. Qed.

Lemma nth_map_lt {A B} (f : A -> B) l d d' i : (i < List.length l)%nat -> nth i (map f l) d' = f (nth i l d).
Proof. intros H. rewrite (nth_indep _ _ (f d)) by (rewrite map_length; exact H). apply map_nth. Qed.

(** ** Plain predictions *)
Lemma flat_values zd mk c b b' i x y : pred_execute zd mk c b = (b', Ok tt) -> p_weighted c = false -> p_cosmo c = None ->
  (i < List.length (p_suffixes c))%nat -> has_flat b (p_in c) (nth i (p_suffixes c) ""%string) x y -> rising x ->
  exists v, written b' (p_out c) (i + 1) v (nth i (p_obs c) []) /\ List.length v = List.length (nth i (p_obs c) []) /\
    forall j, (j < List.length v)%nat -> says x y (nth j (nth i (p_obs c) []) 0) (nth j v 0).
Proof.
  intros H W C Hi F Rx. destruct (execute_runs _ _ _ _ _ H) as (run & _ & P & _). destruct (P i Hi) as (v & E & Wr).
  apply bin_none in E; [|exact C]. unfold raw_bin in E. rewrite (load_flat _ _ _ _ _ F), W in E. cbn [bind] in E. inversion E; subst v.
  exists (map (row_interp x y) (nth i (p_obs c) [])). split; [exact Wr|]. rewrite map_length. split; [reflexivity|].
  intros j Hj. rewrite (nth_map_lt _ _ 0) by exact Hj. apply says_value, Rx.
Qed.
Lemma table_values zd mk c b b' i z x t sample zn nn : pred_execute zd mk c b = (b', Ok tt) -> p_weighted c = false -> p_cosmo c = None ->
  (i < List.length (p_suffixes c))%nat -> has_table b (p_in c) (nth i (p_suffixes c) ""%string) z x t ->
  p_sample c = Some sample -> has_nz b sample (i + 1) zn nn -> rising x -> rising zn -> (1 <= List.length z)%nat ->
  exists v w, written b' (p_out c) (i + 1) v (nth i (p_obs c) []) /\ List.length v = List.length (nth i (p_obs c) []) /\
    (forall k, (k < List.length z)%nat -> says zn nn (nth k z 0) (w k)) /\
    forall j, (j < List.length v)%nat -> exists f,
      (forall k, (k < List.length z)%nat -> says x (nth k t []) (nth j (nth i (p_obs c) []) 0) (f k)) /\
      nth j v 0 = simpson (List.length z) (fun k => w k * f k) (fun k => nth k z 0).
Proof.
  intros H W C Hi F S N Rx Rz L1. destruct (execute_runs _ _ _ _ _ H) as (run & _ & P & _). destruct (P i Hi) as (v & E & Wr).
  apply bin_none in E; [|exact C]. unfold raw_bin in E. rewrite (load_table _ _ _ _ _ _ F), W in E. unfold need_sample in E. rewrite S in E. cbn [bind] in E.
  rewrite (load_nz _ _ _ _ _ _ N) in E. cbn [bind] in E. destruct F as (_ & _ & _ & LT & _). rewrite map_length, LT, Nat.eqb_refl in E. inversion E; subst v.
  set (q := nth i (p_obs c) []) in *. eexists. exists (fun k => row_interp zn nn (nth k z 0)). split; [exact Wr|]. rewrite map_length. split; [reflexivity|].
  split; [intros k _; apply says_value, Rz|]. intros j Hj. exists (fun k => row_interp x (nth k t []) (nth j q 0)).
  split; [intros k _; apply says_value, Rx|]. rewrite (nth_map_lt _ _ 0) by exact Hj. unfold over_z.
  apply simpson_ext; [exact L1| |reflexivity]. intros k Hk.
  rewrite (nth_map_lt (row_interp zn nn) _ 0) by exact Hk. rewrite (nth_map_lt (row_interp x) _ []) by (rewrite LT; exact Hk). reflexivity.
Qed.
(** A function that does not depend on redshift and a normalised distribution. *)
Lemma table_average zd mk c b b' i z x t y sample zn nn w : pred_execute zd mk c b = (b', Ok tt) -> p_weighted c = false -> p_cosmo c = None ->
  (i < List.length (p_suffixes c))%nat -> has_table b (p_in c) (nth i (p_suffixes c) ""%string) z x t ->
  p_sample c = Some sample -> has_nz b sample (i + 1) zn nn -> rising x -> rising zn -> (1 <= List.length z)%nat ->
  (forall k, (k < List.length z)%nat -> nth k t [] = y) ->
  (forall k, (k < List.length z)%nat -> says zn nn (nth k z 0) (w k)) -> simpson (List.length z) w (fun k => nth k z 0) = 1 ->
  exists v, written b' (p_out c) (i + 1) v (nth i (p_obs c) []) /\ List.length v = List.length (nth i (p_obs c) []) /\
    forall j, (j < List.length v)%nat -> says x y (nth j (nth i (p_obs c) []) 0) (nth j v 0).
Proof.
  intros H W C Hi F S N Rx Rz L1 T Hw One. destruct (table_values _ _ _ _ _ _ _ _ _ _ _ _ H W C Hi F S N Rx Rz L1) as (v & w' & Wr & Lv & A & B).
  exists v. split; [exact Wr|]. split; [exact Lv|]. intros j Hj. destruct (B j Hj) as (f & Ff & E). set (q := nth j (nth i (p_obs c) []) 0) in *.
  replace (nth j v 0) with (row_interp x y q); [apply says_value, Rx|]. rewrite E.
  rewrite (simpson_ext _ _ (fun k => row_interp x y q * w k) _ (fun k => nth k z 0)); [|exact L1| |reflexivity].
  - rewrite simpson_scal, One. ring.
  - intros k Hk. pose proof (Ff k Hk) as S1. rewrite (T k Hk) in S1. apply says_only in S1; [|exact Rx]. rewrite S1.
    rewrite (says_only _ _ _ _ Rz (A k Hk)), (says_only _ _ _ _ Rz (Hw k Hk)). ring.
Qed.
(** One redshift: Simpson's rule has no interval. *)
Lemma single_redshift zd mk c b b' i z0 x t sample zn nn : pred_execute zd mk c b = (b', Ok tt) -> p_weighted c = false -> p_cosmo c = None ->
  (i < List.length (p_suffixes c))%nat -> has_table b (p_in c) (nth i (p_suffixes c) ""%string) [z0] x t ->
  p_sample c = Some sample -> has_nz b sample (i + 1) zn nn -> rising x -> rising zn ->
  exists v, written b' (p_out c) (i + 1) v (nth i (p_obs c) []) /\ forall j, nth j v 0 = 0.
Proof.
  intros H W C Hi F S N Rx Rz. destruct (table_values _ _ _ _ _ _ _ _ _ _ _ _ H W C Hi F S N Rx Rz (le_n 1)) as (v & w' & Wr & Lv & A & B).
  exists v. split; [exact Wr|]. intro j. destruct (lt_dec j (List.length v)) as [Hj|Hj]; [|apply nth_overflow; lia].
  destruct (B j Hj) as (f & _ & ->). unfold simpson. cbn. unfold basic_simpson. reflexivity.
Qed.

(** ** When a call ends well *)
Lemma flat_runs zd mk c b : p_weighted c = false -> p_cosmo c = None -> fresh b (p_out c) (List.length (p_suffixes c)) ->
  (forall i, (i < List.length (p_suffixes c))%nat -> exists x y, has_flat b (p_in c) (nth i (p_suffixes c) ""%string) x y) ->
  exists b', pred_execute zd mk c b = (b', Ok tt).
Proof.
  intros W C Fr F. apply (execute_ends zd mk c b None); [unfold run_cosmo; now rewrite C|exact Fr|].
  intros i Hi. destruct (F i Hi) as (x & y & Fx). unfold pred_bin, raw_bin. rewrite (load_flat _ _ _ _ _ Fx), W, C. cbn [bind]. eexists. reflexivity.
Qed.
Lemma table_runs zd mk c b sample : p_weighted c = false -> p_cosmo c = None -> p_sample c = Some sample -> fresh b (p_out c) (List.length (p_suffixes c)) ->
  (forall i, (i < List.length (p_suffixes c))%nat -> exists z x t, has_table b (p_in c) (nth i (p_suffixes c) ""%string) z x t) ->
  (forall i, (i < List.length (p_suffixes c))%nat -> exists zn nn, has_nz b sample (i + 1) zn nn) ->
  exists b', pred_execute zd mk c b = (b', Ok tt).
Proof.
  intros W C S Fr F N. apply (execute_ends zd mk c b None); [unfold run_cosmo; now rewrite C|exact Fr|].
  intros i Hi. destruct (F i Hi) as (z & x & t & Fx). destruct (N i Hi) as (zn & nn & Nx). unfold pred_bin, raw_bin.
  rewrite (load_table _ _ _ _ _ _ Fx), W, C. unfold need_sample. rewrite S. cbn [bind]. rewrite (load_nz _ _ _ _ _ _ Nx). cbn [bind].
  destruct Fx as (_ & _ & _ & L & _). rewrite map_length, L, Nat.eqb_refl. cbn [bind]. eexists. reflexivity.
Qed.
(** The names are taken when the module runs again on the same block. *)
Lemma runs_once zd mk c b b' : pred_execute zd mk c b = (b', Ok tt) -> (0 < List.length (p_suffixes c))%nat ->
  exists b2 e, pred_execute zd mk c b' = (b2, Err e).
Proof.
  intros H N. destruct (execute_runs _ _ _ _ _ H) as (run & _ & P & _). destruct (P 0%nat N) as (v & _ & (A & _)).
  destruct (pred_execute zd mk c b') as [b2 [[]|e]] eqn:E; [|eauto]. exfalso.
  unfold pred_execute in E. destruct (run_cosmo mk c b') as [r2|]; [|discriminate]. apply then_ok in E as (b3 & u & E & _).
  destruct (List.length (p_suffixes c)) as [|m]; [lia|]. cbn [seq pred_loop] in E. destruct (pred_bin zd r2 c b' 0) as [v2|]; [|discriminate].
  apply then_ok in E as (b4 & u4 & E & _). apply put_new_ok in E as [E _]. unfold bin_key in E. cbn in A, E. congruence.
Qed.
(** What else the block holds stays. *)
Lemma frame zd mk c b b' : pred_execute zd mk c b = (b', Ok tt) ->
  b' (p_out c) "nbin"%string = Some (BInt (Z.of_nat (List.length (p_suffixes c)))) /\
  b' (p_out c) "sample"%string = Some (BStr (match p_sample c with Some s => s | None => "None" end)) /\
  (forall s n, s <> p_out c -> b' s n = b s n) /\
  (forall n v, b (p_out c) n = Some v -> n <> "nbin"%string -> n <> "sample"%string -> b' (p_out c) n = Some v).
Proof.
  intro H. destruct (execute_runs _ _ _ _ _ H) as (run & _ & _ & A & B & C). split; [exact A|]. split; [exact B|]. split.
  - intros s n D. apply C. now left.
  - intros n v Hv N1 N2. unfold pred_execute in H. destruct (run_cosmo mk c b) as [r2|]; [|discriminate]. apply then_ok in H as (b1 & [] & E & H).
    apply (loop_runs zd r2 c b _ _ _ _ (grown_refl _ _)) in E as (_ & K & _). inversion H; subst b'. rewrite !bput_other by (now right). apply K, Hv.
Qed.

(** ** The correction *)
Definition uncorrected (c : pconfig) : pconfig :=
  {| p_in := p_in c; p_out := p_out c; p_suffixes := p_suffixes c; p_sample := p_sample c; p_weighted := p_weighted c;
     p_dist := p_dist c; p_min := p_min c; p_max := p_max c; p_zmin := p_zmin c; p_zmax := p_zmax c; p_n := p_n c;
     p_edges := p_edges c; p_obs := p_obs c; p_cosmo := None |}.
Lemma raw_uncorrected zd c b i : raw_bin zd (uncorrected c) b i = raw_bin zd c b i. Proof. reflexivity. Qed.
Lemma corrected zd mk c b b' data : pred_execute zd mk c b = (b', Ok tt) -> p_cosmo c = Some data ->
  exists args b0, run_arguments b = Ok args /\ pred_execute zd mk (uncorrected c) b = (b0, Ok tt) /\
  List.length (p_zmin c) = List.length (p_suffixes c) /\ List.length (p_zmax c) = List.length (p_suffixes c) /\
  forall i, (i < List.length (p_suffixes c))%nat ->
    let z1 := nth i (p_zmin c) 0 in let z2 := nth i (p_zmax c) 0 in
    let vol m := (c_dist m z2 ^ 3 - c_dist m z1 ^ 3) * c_h m ^ 3 in
    vol data <> 0 ->
    exists v, written b0 (p_out c) (i + 1) v (nth i (p_obs c) []) /\
              written b' (p_out c) (i + 1) (map (fun x => x * (vol (mk args) / vol data)) v) (nth i (p_obs c) []).
Proof.
  intros H C. pose proof H as H0. destruct (execute_runs _ _ _ _ _ H) as (run & R & P & _). unfold run_cosmo in R. rewrite C in R.
  destruct (Nat.eqb_spec (List.length (p_zmin c)) (List.length (p_suffixes c))) as [L1|]; [|discriminate].
  destruct (Nat.eqb_spec (List.length (p_zmax c)) (List.length (p_suffixes c))) as [L2|]; [|discriminate]. cbn [andb negb] in R.
  destruct (run_arguments b) as [args|] eqn:Ar; [|discriminate]. cbn [bind] in R. inversion R; subst run. clear R.
  assert (Q : forall i, (i < List.length (p_suffixes c))%nat -> exists v, raw_bin zd c b i = Ok v).
  { intros i Hi. destruct (P i Hi) as (v & E & _). unfold pred_bin in E. destruct (raw_bin zd c b i); [eauto|discriminate]. }
  destruct (execute_ends zd mk (uncorrected c) b None) as [b0 E0]; [reflexivity| | |].
  - intros i Hi. cbn in Hi |- *. cut (forall n, In n (names i) -> b (p_out c) n = None).
    { intros K. repeat split; apply K; unfold names, obs_key, bin_key; cbn [In]; tauto. }
    intros n I. destruct (b (p_out c) n) as [w|] eqn:Bn; [exfalso|reflexivity].
    clear -H0 Hi I Bn. unfold pred_execute in H0. destruct (run_cosmo mk c b) as [r2|]; [|discriminate]. apply then_ok in H0 as (b1 & [] & E & _).
    assert (K : forall m k b2, (k < i <= k + m)%nat -> b2 (p_out c) n = Some w -> pred_loop zd r2 c (seq k m) b2 <> (b1, Ok tt)).
    { induction m as [|m IH]; intros k b2 L Bk Hk; [lia|]. cbn [seq pred_loop] in Hk. destruct (pred_bin zd r2 c b2 k); [|discriminate].
      apply then_ok in Hk as (b3 & u3 & H3 & Hk). apply then_ok in Hk as (b4 & u4 & H4 & Hk). apply then_ok in Hk as (b5 & u5 & H5 & Hk).
      apply put_new_ok in H3 as [F3 ->]. apply put_new_ok in H4 as [F4 ->]. apply put_new_ok in H5 as [F5 ->].
      rewrite bput_other in F4 by (right; discriminate). rewrite !bput_other in F5 by (right; discriminate).
      destruct (Nat.eq_dec i (k + 1)) as [->|N].
      - unfold names in I. cbn [In] in I. destruct I as [<-|[<-|[<-|[]]]]; congruence.
      - revert Hk. apply IH; [lia|]. rewrite !bput_other; [exact Bk| | |]; right; intros ->; congruence. }
    revert E. apply (K (List.length (p_suffixes c)) 0%nat b); [lia|exact Bn].
  - intros i Hi. destruct (Q i Hi) as [v E]. exists v. unfold pred_bin. rewrite raw_uncorrected, E. reflexivity.
  - exists args, b0. split; [reflexivity|]. split; [exact E0|]. split; [exact L1|]. split; [exact L2|].
    intros i Hi z1 z2 vol V. destruct (P i Hi) as (v' & E & W'). destruct (execute_runs _ _ _ _ _ E0) as (r0 & _ & P0 & _).
    destruct (P0 i Hi) as (v & Ev & Wv). apply bin_none in Ev; [|reflexivity]. rewrite raw_uncorrected in Ev.
    exists v. split; [exact Wv|]. unfold pred_bin in E. rewrite Ev, C in E. cbn [bind] in E. unfold quotient, shell in E.
    destruct (Req_EM_T _ 0) as [Z|_] in E; [contradiction|]. inversion E; subst v'. exact W'.
Qed.
