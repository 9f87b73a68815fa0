(** Lemmas about LrModel: reading back, when it runs, and what it leaves alone. *)
From Coq Require Import ZArith Lia Lra.
From Coquelicot Require Import Complex.
From Verif Require Import Base Quad Interp InterpFacts FftModel PipeModel PipeFacts OptModel ChainModel PredModel MiniModel IaModel IaFacts UellModel AupModel AupSpec AupFacts AupFacts3 LiaModel LiaSpec LiaFacts LhModel LhSpec LhSpec2 LhFacts LhFacts2 LhFacts5 LhFacts6 LhFacts7 LhFacts10 LrModel LrSpec LrFacts LrFacts2 LrFacts3.
Open Scope R_scope.

(** ** Reading back *)
Lemma search_ext n x x' q : (forall i, (i < n)%nat -> x i = x' i) -> searchsorted n x q = searchsorted n x' q.
Proof. induction n as [|n IH]; intros H; [reflexivity|]. cbn [searchsorted]. rewrite IH by (intros i Hi; apply H; lia). now rewrite H by lia. Qed.
Lemma bilinear_ext n1 x1 y1 n2 x2 y2 v w q1 q2 : (2 <= n1)%nat -> (2 <= n2)%nat -> (forall i, (i < n1)%nat -> x1 i = y1 i) -> (forall i, (i < n2)%nat -> x2 i = y2 i) ->
  (forall i j, (i < n1)%nat -> (j < n2)%nat -> v i j = w i j) -> bilinear n1 x1 n2 x2 v q1 q2 = bilinear n1 y1 n2 y2 w q1 q2.
Proof.
  intros A B X Y V. unfold bilinear. rewrite (search_ext n1 x1 y1 q1 X), (search_ext n2 x2 y2 q2 Y).
  set (h1 := clip_idx n1 (searchsorted n1 y1 q1)). set (h2 := clip_idx n2 (searchsorted n2 y2 q2)).
  assert (H1 : (1 <= h1 < n1)%nat) by (unfold h1, clip_idx; lia). assert (H2 : (1 <= h2 < n2)%nat) by (unfold h2, clip_idx; lia). cbv zeta.
  rewrite !X, !Y, !V by lia. reflexivity.
Qed.
Lemma upsampled_ext nm m m' nk k k' w w' kq mq : (2 <= nm)%nat -> (2 <= nk)%nat -> (forall i, (i < nm)%nat -> m i = m' i) -> (forall i, (i < nk)%nat -> k i = k' i) ->
  (forall i j, (i < nm)%nat -> (j < nk)%nat -> w i j = w' i j) -> upsampled_hankel nm m nk k w kq mq = upsampled_hankel nm m' nk k' w' kq mq.
Proof.
  intros A B M K W. unfold upsampled_hankel. f_equal. f_equal. apply bilinear_ext; try assumption.
  - intros i I. now rewrite K.
  - intros i I. now rewrite M.
  - intros i j I J. now rewrite W, K by assumption.
Qed.
Lemma each_runs {A} n (f : nat -> res A) (g : nat -> A) : (forall j, (j < n)%nat -> f j = Ok (g j)) -> each n f = Ok (map g (seq 0 n)).
Proof. induction n as [|n IH]; intros H; [reflexivity|]. cbn [each]. rewrite IH by (intros j J; apply H; lia). cbn [bind]. rewrite H by lia. cbn [bind]. now rewrite seq_S, map_app. Qed.
Lemma read_back b sfx nz nm nk m k W kv mq : (2 <= nm)%nat -> (2 <= nk)%nat ->
  (forall j, (j < nz)%nat -> holds_array (b "wkm"%string (sat_name "mass_" j sfx)) nm m /\ holds_array (b "wkm"%string (sat_name "k_h_" j sfx)) nk k /\ holds_table (b "wkm"%string (sat_name "w_km_" j sfx)) nm nk (W j)) ->
  get_satellite_alignment b kv mq nz sfx = Ok (map (fun j => map (fun x => map (fun y => upsampled_hankel nm m nk k (W j) y x) kv) mq) (seq 0 nz)).
Proof.
  intros A B H. apply each_runs. intros j J. destruct (H j J) as ((ms & M1 & M2 & M3) & (ks & K1 & K2 & K3) & (t & T1 & T2 & T3)). unfold sat_alignment_at, table_at, array, sat_name in *. rewrite T1, K1, M1. cbn [bind].
  assert (Ft : fits ms ks t = true).
  { apply fits_iff. split; [lia|]. split; [lia|]. split; [lia|]. intros r I. apply (In_nth _ _ []) in I. destruct I as (i & I & <-). rewrite T2 in I. destruct (T3 i I) as [-> _]. lia. }
  rewrite Ft. f_equal. apply map_ext. intros x. apply map_ext. intros y. rewrite M2, K2. apply upsampled_ext; try assumption.
  intros i l I L. unfold entry. destruct (T3 i I) as [_ E]. now apply E.
Qed.

(** ** The shape of what is written, for any options and block *)
Lemma tables_shape ht c b l : lr_tables ht c b = Ok l -> exists z T m k, b "concentration_m"%string "z"%string = Some (BArr z) /\
  l = (map (fun j => Grid "wkm" (sat_name "mass_" j (rc_suffix c)) m (sat_name "k_h_" j (rc_suffix c)) k (sat_name "w_km_" j (rc_suffix c)) (T j)) (seq 0 (List.length z)) ++ [Plain "wkm" ("z" ++ rc_suffix c) (BArr z)])%list.
Proof.
  unfold lr_tables. intros H. apply bind_ok in H. destruct H as (i & I & H). apply bind_ok in H. destruct H as (u & _ & H). apply bind_ok in H. destruct H as (u' & _ & H). apply bind_ok in H. destruct H as (ang & _ & H).
  injection H as <-. unfold lr_input in I. apply bind_ok in I. destruct I as (x1 & _ & I). apply bind_ok in I. destruct I as (x2 & _ & I). apply bind_ok in I. destruct I as (z & Z & I).
  repeat (apply bind_ok in I; destruct I as (? & _ & I)). injection I as <-. cbn [ri_z ri_halos ri_b ri_a] in *. unfold array in Z.
  destruct (b "concentration_m"%string "z"%string) as [[| | |zz|]|] eqn:E; try discriminate. injection Z as ->.
  eexists z, _, _, _. split; reflexivity.
Qed.
Lemma suffix_tail missing wrong o c : lr_setup missing wrong o = Ok c -> tail_name (rc_suffix c).
Proof.
  unfold lr_setup. intros I. repeat (apply bind_ok in I; destruct I as (? & _ & I)). injection I as <-. cbn [rc_suffix].
  match goal with |- tail_name (suffix_of ?n) => exists n; unfold suffix_of, part_of_name; destruct (String.eqb_spec n ""); [left|right]; now split end.
Qed.
Definition zs (z : list R) : satellites := {| sa_nmass := 0; sa_kmin := 0; sa_kmax := 0; sa_nk := 0; sa_ell_max := 0; sa_hankel := 0; sa_slope := 0; sa_amplitude := []; sa_z := z; sa_mass := []; sa_c := []; sa_rs := []; sa_rvir := [] |}.
Lemma frame over ht c b b' r s n : lr_execute over ht c b = (b', r) -> (s = "wkm"%string -> forall nz, ~ sat_written nz (rc_suffix c) n) -> b' s n = b s n.
Proof.
  unfold lr_execute, read_write. destruct (lr_tables ht c b) as [l|e] eqn:E; [|intros H _; now injection H as <- _].
  intros H Q. apply (do_puts_frame _ _ _ _ _ _ _ H). intros v I. apply tables_shape in E. destruct E as (z & T & m & k & _ & ->). change z with (sa_z (zs z)) in I.
  apply (proj1 (grid_in (zs z) (rc_suffix c) T m k s n v)) in I. destruct I as (Es & I). apply (Q Es (List.length z)). destruct I as [[-> _]|(j & J & K)]; [now left|right; exists j]. split; [exact J|tauto].
Qed.
Lemma failing over ht missing wrong o c b b' e : lr_setup missing wrong o = Ok c -> (forall nz n, sat_written nz (rc_suffix c) n -> b "wkm"%string n = None) -> lr_execute over ht c b = (b', Err e) -> b' = b.
Proof.
  intros S Q. unfold lr_execute, read_write. destruct (lr_tables ht c b) as [l|e'] eqn:E; [|intros H; now injection H as <- _].
  apply tables_shape in E. destruct E as (z & T & m & k & _ & ->). intros H.
  destruct (grid_runs over (zs z) (rc_suffix c) T m k b (suffix_tail _ _ _ _ S)) as (b2 & R); [intros n W; exact (Q _ _ W)|]. unfold grid_entries in R. cbn [sa_z zs] in R. rewrite R in H. discriminate.
Qed.
Lemma again over over' ht ht' c b b' r : lr_execute over ht c b = (b', Ok tt) -> lr_execute over' ht' c b' <> (r, Ok tt).
Proof.
  unfold lr_execute at 1. intros H. apply read_write_ok in H. destruct H as (l & L & ->). apply tables_shape in L. destruct L as (z & T & m & k & _ & ->). intros H.
  unfold lr_execute, read_write in H. match type of H with match ?x with _ => _ end = _ => destruct x as [l2|e2] eqn:E2; [|discriminate] end.
  apply tables_shape in E2. destruct E2 as (z2 & T2 & m2 & k2 & _ & ->). pose proof (puts_need _ _ _ _ "wkm"%string ("z" ++ rc_suffix c)%string (BArr z2) H) as K.
  specialize (K ltac:(apply in_or_app; right; now left)). rewrite flat_map_app, entries_app in K. cbn [flat_map entries put_entries fold_left app] in K. unfold put_entry in K. cbn [fst snd] in K. rewrite LhFacts.bput_eq in K. discriminate.
Qed.
Lemma written_apart nz nz' s t n : tail_name s -> tail_name t -> sat_written nz s n -> sat_written nz' t n -> s = t.
Proof.
  intros S T [E|(j & _ & E)] [E'|(j' & _ & E')].
  - rewrite E in E'. now apply z_inj.
  - exfalso. rewrite E in E'. destruct E' as [E'|[E'|E']]; discriminate.
  - exfalso. rewrite E' in E. destruct E as [E|[E|E]]; discriminate.
  - destruct E as [E|[E|E]], E' as [E'|[E'|E']]; rewrite E in E'; try discriminate; apply name_inj in E'; tauto.
Qed.

Section When.
  Variables (over : bool) (ht : Z -> R -> (R -> R) -> R -> R) (missing wrong : string) (o : options) (sfx : string) (s : satellites) (c : rconfig) (b : dblock).
  Hypothesis Says : sat_says o b sfx s.
  Hypothesis C : lr_setup missing wrong o = Ok c.
  Lemma run_when : sat_fits s -> (1 <= sa_nmass s <= Z.of_nat (List.length (sa_mass s)))%Z -> (forall n, sat_written (List.length (sa_z s)) sfx n -> b "wkm"%string n = None) ->
    ((exists b', lr_execute over ht c b = (b', Ok tt)) <-> sa_slope s = 0 \/ sa_slope s = -2 \/ (sa_ell_max s < 0)%Z).
  Proof.
    intros F N Q. destruct Says as (O & B & G & A). rewrite <- (tables_iff ht _ _ _ _ _ _ O C b B G A F N). unfold lr_execute, read_write. split.
    - intros (b' & H). destruct (lr_tables ht c b) as [l|e]; [now exists l|discriminate].
    - intros (l & L). rewrite L. rewrite (tables_are ht _ _ _ _ _ _ O C b B G A F N) in L. destruct (lr_angular _ _ _ _) as [ang|e]; [|discriminate]. cbn [bind] in L. injection L as <-.
      apply (grid_runs over s sfx); [eapply options_tail; eassumption|exact Q].
  Qed.
  Lemma slope_stops : sat_fits s -> (1 <= sa_nmass s <= Z.of_nat (List.length (sa_mass s)))%Z -> sa_slope s <> 0 -> sa_slope s <> -2 -> (0 <= sa_ell_max s)%Z -> lr_execute over ht c b = (b, Err "TypeError").
  Proof. intros F N. destruct Says as (O & B & G & A). exact (tables_slope over ht _ _ _ _ _ _ O C b B G A F N). Qed.
  Lemma too_coarse : (Z.of_nat (List.length (sa_mass s)) < sa_nmass s)%Z -> lr_execute over ht c b = (b, Err "ValueError").
  Proof.
    intros H. destruct Says as (O & B & G & A). unfold lr_execute, read_write, lr_tables. rewrite (input_is _ _ _ _ _ _ O C b B G A). destruct (Z.ltb_spec (Z.of_nat (List.length (sa_mass s))) (sa_nmass s)); [reflexivity|lia].
  Qed.
  Lemma no_points : sa_nmass s = 0%Z -> (1 <= List.length (sa_mass s))%nat -> lr_execute over ht c b = (b, Err "ZeroDivisionError").
  Proof.
    intros H L. destruct Says as (O & B & G & A). unfold lr_execute, read_write, lr_tables. rewrite (input_is _ _ _ _ _ _ O C b B G A). destruct (Z.ltb_spec (Z.of_nat (List.length (sa_mass s))) (sa_nmass s)); [lia|].
    unfold lr_downsample. cbn [raw ha_mass]. rewrite H. destruct (Z.eqb_spec (Z.of_nat (List.length (sa_mass s))) 0); [lia|]. reflexivity.
  Qed.
End When.

(** ** After ia_amplitudes.py *)
Lemma after_amplitudes missing wrong columns oa b sfx a ca b1 o s : described columns oa b sfx a -> lia_setup missing wrong columns oa = Ok ca -> lia_execute ca b = (b1, Ok tt) ->
  sat_options o sfx s -> sat_halos b s -> reads b (parameters_of sfx) "gamma_1h_radial_slope" (sa_slope s) ->
  forall g, b1 (satellite_section sfx) "alignment_1h"%string = Some (over_z (am_nz a) g) -> sa_amplitude s = map g (seq 0 (am_nz a)) -> sat_says o b1 sfx s.
Proof.
  intros D Sa Rn O (B1 & B2 & B3 & B4 & B5) G g A E.
  assert (K : forall sec n, (forall x, sec <> central_section x) -> (forall x, sec <> satellite_section x) -> b1 sec n = b sec n).
  { intros sec n N1 N2. apply (run_frame _ _ _ _ _ _ Rn). intros [[W _]|[W _]]; [now apply (N1 (l_suffix ca))|now apply (N2 (l_suffix ca))]. }
  split; [exact O|]. split.
  - unfold sat_halos. rewrite !K by (intros x Q; discriminate). now repeat split.
  - split; [unfold reads; rewrite K by (intros x Q; discriminate); exact G|]. rewrite A, E. reflexivity.
Qed.

(** ** The class *)
Lemma picked_nth l is m : (m < List.length is)%nat -> nth m (picked 0 is l) 0 = nth (nth m is 0%nat) l 0.
Proof. intros M. unfold picked. rewrite (nth_indep _ 0 ((fun i => nth i l 0) 0%nat)) by (now rewrite map_length). apply (map_nth (fun i => nth i l 0)). Qed.
Lemma class_left : forall over ht missing wrong o sfx s c b b', sat_says o b sfx s -> lr_setup missing wrong o = Ok c -> sat_fits s -> no_ties s ->
  (1 <= sa_nmass s <= Z.of_nat (List.length (sa_mass s)))%Z -> lr_execute over ht c b = (b', Ok tt) ->
  exists ms, class_mass s = Ok ms /\ forall j, (j < List.length (sa_z s))%nat ->
    holds_array (b' "wkm"%string (sat_name "mass_" j sfx)) (List.length ms) (fun m => nth m ms 0) /\
    holds_array (b' "wkm"%string (sat_name "k_h_" j sfx)) (Z.to_nat (sa_nk s)) (sat_k s) /\
    exists W, holds_table (b' "wkm"%string (sat_name "w_km_" j sfx)) (List.length ms) (Z.to_nat (sa_nk s)) W /\
      forall G m k, (m < List.length ms)%nat -> class_wkm G ht s j m (sat_k s k) = Ok (W m k).
Proof.
  intros over ht missing wrong o sfx s c b b' Y C F U N Rn. destruct (run_tables over ht _ _ _ _ _ _ _ _ Y C F N Rn) as [_ T]. exists (picked 0 (idx s) (sa_mass s)).
  split; [apply class_masses; [exact N|apply F]|]. assert (L : List.length (picked 0 (idx s) (sa_mass s)) = List.length (idx s)) by (unfold picked; now rewrite map_length). rewrite L.
  intros j J. destruct (T j J) as ((l & E & El & Ev) & K & W & HW & V). split; [|split; [exact K|]].
  - exists l. split; [exact E|]. split; [exact El|]. intros m M. rewrite Ev by exact M. symmetry. now apply picked_nth.
  - exists W. split; [exact HW|]. intros G m k M. rewrite class_value by assumption. now apply V.
Qed.
Lemma sampled_two s : (1 <= sa_nmass s <= Z.of_nat (List.length (sa_mass s)))%Z -> (2 <= List.length (sa_mass s))%nat -> (2 <= List.length (idx s))%nat.
Proof.
  intros N L. pose proof (index_sampling (List.length (sa_mass s)) (Z.to_nat (sa_nmass s)) ltac:(lia)) as (A & B & _). fold (idx s) in *.
  destruct (idx s) as [|x [|y l]]; cbn [last hd List.length] in *; lia.
Qed.
Lemma upsampled_left : forall over ht missing wrong o sfx s c b b' kv mq, sat_says o b sfx s -> lr_setup missing wrong o = Ok c -> sat_fits s -> no_ties s ->
  (1 <= sa_nmass s <= Z.of_nat (List.length (sa_mass s)))%Z -> (2 <= List.length (sa_mass s))%nat -> (2 <= sa_nk s)%Z -> lr_execute over ht c b = (b', Ok tt) ->
  exists ms W, class_mass s = Ok ms /\
    (forall G j m k, (j < List.length (sa_z s))%nat -> (m < List.length ms)%nat -> class_wkm G ht s j m (sat_k s k) = Ok (W j m k)) /\
    get_satellite_alignment b' kv mq (List.length (sa_z s)) sfx =
      Ok (map (fun j => map (fun x => map (fun y => upsampled_hankel (List.length ms) (fun m => nth m ms 0) (Z.to_nat (sa_nk s)) (sat_k s) (W j) y x) kv) mq) (seq 0 (List.length (sa_z s)))).
Proof.
  intros over ht missing wrong o sfx s c b b' kv mq Y C F U N L K Rn. destruct (class_left _ _ _ _ _ _ _ _ _ _ Y C F U N Rn) as (ms & M & T).
  set (W := fun j m k => match class_wkm (fun x => x) ht s j m (sat_k s k) with Ok w => w | Err _ => 0 end). exists ms, W. split; [exact M|]. split.
  - intros G j m k J I. destruct (T j J) as (_ & _ & W' & _ & V). unfold W. now rewrite (V (fun x => x) m k I), (V G m k I).
  - assert (Lm : (2 <= List.length ms)%nat). { rewrite class_masses in M by (first [exact N|apply F]). injection M as <-. unfold picked. rewrite map_length. now apply sampled_two. }
    apply read_back; [exact Lm|lia|]. intros j J. destruct (T j J) as (A & B & W' & (t & E & Et & Ev) & V). split; [exact A|]. split; [exact B|].
    exists t. split; [exact E|]. split; [exact Et|]. intros m I. destruct (Ev m I) as [X Z]. split; [exact X|]. intros k Kk. rewrite Z by exact Kk. unfold W. now rewrite V.
Qed.
