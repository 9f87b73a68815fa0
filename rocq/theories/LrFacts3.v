(** Lemmas about LrModel: the tables a run leaves. *)
From Coq Require Import ZArith Lia Lra Ascii.
From Coquelicot Require Import Complex.
From Verif Require Import Base Quad Interp FftModel PipeModel PipeFacts OptModel ChainModel PredModel MiniModel IaModel IaFacts UellModel AupModel AupSpec AupFacts AupFacts3 LiaModel LiaSpec LiaFacts LhModel LhSpec LhSpec2 LhFacts LhFacts2 LhFacts5 LhFacts6 LhFacts7 LhFacts10 LrModel LrSpec LrFacts LrFacts2.
Open Scope R_scope.

(** ** Names *)
Lemma first_underscore : forall l1 l2 r1 r2 : list ascii, ~ In "_"%char l1 -> ~ In "_"%char l2 -> (r1 = [] \/ hd_error r1 = Some "_"%char) -> (r2 = [] \/ hd_error r2 = Some "_"%char) ->
  (l1 ++ r1)%list = (l2 ++ r2)%list -> l1 = l2 /\ r1 = r2.
Proof.
  induction l1 as [|x l1 IH]; intros [|y l2] r1 r2 N1 N2 U1 U2 E; cbn in E.
  - now split.
  - subst r1. exfalso. destruct U1 as [U|U]; [discriminate|]. cbn in U. injection U as ->. apply N2. now left.
  - subst r2. exfalso. destruct U2 as [U|U]; [discriminate|]. cbn in U. injection U as ->. apply N1. now left.
  - injection E as -> E. destruct (IH l2 r1 r2) as [-> ->]; [intros I; apply N1; now right|intros I; apply N2; now right|assumption|assumption|exact E|]. now split.
Qed.
Lemma dec_plain k : ~ In "_"%char (list_ascii_of_string (dec k)).
Proof.
  intros I. pose proof (uint_digits (Nat.to_uint k)) as F. rewrite Forall_forall in F. specialize (F _ I). unfold PipeSpec.digits in F. cbn in F.
  repeat (destruct F as [F|F]; [discriminate|]). exact F.
Qed.
Definition tail_name (sfx : string) : Prop := exists n, part_of_name n sfx.
Lemma tail_chars sfx : tail_name sfx -> list_ascii_of_string sfx = [] \/ hd_error (list_ascii_of_string sfx) = Some "_"%char.
Proof. intros (n & [[_ ->]|[_ ->]]); [now left|now right]. Qed.
Lemma number_name i j s t : tail_name s -> tail_name t -> (dec i ++ s)%string = (dec j ++ t)%string -> i = j /\ s = t.
Proof.
  intros S T E. apply (f_equal list_ascii_of_string) in E. rewrite !chars_app in E. apply first_underscore in E; try apply dec_plain; try (now apply tail_chars).
  destruct E as [E1 E2]. split; [now apply dec_inj, chars_inj|now apply chars_inj].
Qed.
Lemma name_inj n i j s t : tail_name s -> tail_name t -> (n = "mass_" \/ n = "k_h_" \/ n = "w_km_")%string -> sat_name n i s = sat_name n j t -> i = j /\ s = t.
Proof. intros S T H E. unfold sat_name in E. apply number_name; try assumption. destruct H as [-> | [-> | -> ]]; cbn in E; injection E as E; exact E. Qed.
Lemma z_inj s t : ("z" ++ s)%string = ("z" ++ t)%string -> s = t.
Proof. cbn. intros E. now injection E. Qed.
Lemma options_tail o sfx s : sat_options o sfx s -> tail_name sfx.
Proof. intros (_ & _ & _ & _ & _ & _ & name & _ & P). now exists (lower name). Qed.

(** ** What is written *)
Definition grid_entries (s : satellites) (sfx : string) (T : nat -> list (list R)) (m : list R) (k : list R) : list lput :=
  (map (fun j => Grid "wkm" (sat_name "mass_" j sfx) m (sat_name "k_h_" j sfx) k (sat_name "w_km_" j sfx) (T j)) (seq 0 (List.length (sa_z s))) ++ [Plain "wkm" ("z" ++ sfx) (BArr (sa_z s))])%list.
Lemma grid_in s sfx T m k sec n v : In (sec, n, v) (flat_map entries (grid_entries s sfx T m k)) <-> sec = "wkm"%string /\
  ((n = ("z" ++ sfx)%string /\ v = BArr (sa_z s)) \/ exists j, (j < List.length (sa_z s))%nat /\
     ((n = sat_name "mass_" j sfx /\ v = BArr m) \/ (n = sat_name "k_h_" j sfx /\ v = BArr k) \/ (n = sat_name "w_km_" j sfx /\ v = BTab (T j)))).
Proof.
  unfold grid_entries. rewrite flat_map_app, in_app_iff. split.
  - intros [I|I].
    + apply in_flat_map in I. destruct I as (p & P & I). apply in_map_iff in P. destruct P as (j & <- & J). apply in_seq in J. cbn [entries] in I.
      destruct I as [I|[I|[I|[]]]]; injection I as <- <- <-; (split; [reflexivity|right; exists j; split; [lia|tauto]]).
    + cbn in I. destruct I as [I|[]]. injection I as <- <- <-. split; [reflexivity|left; now split].
  - intros (-> & [[-> ->]|(j & J & K)]).
    + right. cbn. now left.
    + left. apply in_flat_map. exists (Grid "wkm" (sat_name "mass_" j sfx) m (sat_name "k_h_" j sfx) k (sat_name "w_km_" j sfx) (T j)). split; [apply in_map_iff; exists j; split; [reflexivity|apply in_seq; lia]|].
      cbn [entries]. destruct K as [[-> ->]|[[-> ->]|[-> ->]]]; cbn; tauto.
Qed.
Lemma grid_left s sfx T m k b : tail_name sfx -> let b' := put_entries (flat_map entries (grid_entries s sfx T m k)) b in
  b' "wkm"%string ("z" ++ sfx)%string = Some (BArr (sa_z s)) /\ forall j, (j < List.length (sa_z s))%nat ->
    b' "wkm"%string (sat_name "mass_" j sfx) = Some (BArr m) /\ b' "wkm"%string (sat_name "k_h_" j sfx) = Some (BArr k) /\ b' "wkm"%string (sat_name "w_km_" j sfx) = Some (BTab (T j)).
Proof.
  intros U. cbv zeta. split.
  { apply entries_value; [apply grid_in; split; [reflexivity|left; now split]|]. intros v' I. apply grid_in in I. destruct I as (_ & [[_ ->]|(j & _ & K)]); [reflexivity|].
    exfalso. destruct K as [[K _]|[[K _]|[K _]]]; discriminate. }
  intros j J. split; [|split].
  - apply entries_value; [apply grid_in; split; [reflexivity|right; exists j; tauto]|]. intros v' I. apply grid_in in I. destruct I as (_ & [[K _]|(j' & _ & K)]); [discriminate|].
    destruct K as [[_ ->]|[[K _]|[K _]]]; [reflexivity|discriminate|discriminate].
  - apply entries_value; [apply grid_in; split; [reflexivity|right; exists j; tauto]|]. intros v' I. apply grid_in in I. destruct I as (_ & [[K _]|(j' & _ & K)]); [discriminate|].
    destruct K as [[K _]|[[_ ->]|[K _]]]; [discriminate|reflexivity|discriminate].
  - apply entries_value; [apply grid_in; split; [reflexivity|right; exists j; tauto]|]. intros v' I. apply grid_in in I. destruct I as (_ & [[K _]|(j' & _ & K)]); [discriminate|].
    destruct K as [[K _]|[[K _]|[K ->]]]; [discriminate|discriminate|]. apply name_inj in K; [|exact U|exact U|tauto]. destruct K as [-> _]. reflexivity.
Qed.
Lemma grid_runs over s sfx T m k b : tail_name sfx -> (forall n, sat_written (List.length (sa_z s)) sfx n -> b "wkm"%string n = None) ->
  exists b', do_puts over (grid_entries s sfx T m k) b = (b', Ok tt).
Proof.
  intros U Fr. apply do_puts_runs.
  - unfold grid_entries. rewrite map_app, map_map. cbn [map main_name]. apply NoDup_app_intro.
    + apply FinFun.Injective_map_NoDup; [|apply seq_NoDup]. intros i j E. cbn [main_name] in E. apply pair_equal_spec in E. destruct E as [_ E]. apply name_inj in E; tauto.
    + constructor; [tauto|constructor].
    + intros x I [<-|[]]. apply in_map_iff in I. destruct I as (j & E & _). discriminate.
  - intros p q P Q I. unfold grid_entries in P, Q. apply in_app_or in P. apply in_app_or in Q.
    destruct Q as [Q|[<-|[]]]; [|contradiction]. apply in_map_iff in Q. destruct Q as (j & <- & _). destruct P as [P|[<-|[]]].
    + apply in_map_iff in P. destruct P as (i & <- & _). cbn in I. destruct I as [I|[I|[]]]; discriminate.
    + cbn in I. destruct I as [I|[I|[]]]; discriminate.
  - intros p P. unfold grid_entries in P. apply in_app_or in P. destruct P as [P|[<-|[]]].
    + apply in_map_iff in P. destruct P as (j & <- & J). apply in_seq in J. cbn [main_name fst snd]. apply Fr. right. exists j. split; [lia|tauto].
    + cbn [main_name fst snd]. apply Fr. now left.
Qed.

Section Left.
  Variables (over : bool) (ht : Z -> R -> (R -> R) -> R -> R) (missing wrong : string) (o : options) (sfx : string) (s : satellites) (c : rconfig) (b b' : dblock).
  Hypothesis Says : sat_says o b sfx s.
  Hypothesis C : lr_setup missing wrong o = Ok c.
  Hypothesis F : sat_fits s.
  Hypothesis N : (1 <= sa_nmass s <= Z.of_nat (List.length (sa_mass s)))%Z.
  Lemma tables_eq : lr_tables ht c b = bind (lr_angular (PI / 2) 0 (sa_slope s) (ell_values (sa_ell_max s))) (fun ang => Ok (table_puts ht sfx s c ang)).
  Proof. destruct Says as (O & B & G & A). exact (tables_are ht _ _ _ _ _ _ O C b B G A F N). Qed.
  Lemma run_left : lr_execute over ht c b = (b', Ok tt) -> exists ang, lr_angular (PI / 2) 0 (sa_slope s) (ell_values (sa_ell_max s)) = Ok ang /\
    b' = put_entries (flat_map entries (table_puts ht sfx s c ang)) b.
  Proof.
    intros Rn. apply read_write_ok in Rn. destruct Rn as (l & L & ->). rewrite tables_eq in L. destruct (lr_angular _ _ _ _) as [ang|e] eqn:An; [|discriminate].
    cbn [bind] in L. injection L as <-. exists ang. split; reflexivity.
  Qed.
  Lemma run_tables : lr_execute over ht c b = (b', Ok tt) -> b' "wkm"%string ("z" ++ sfx)%string = Some (BArr (sa_z s)) /\ forall j, (j < List.length (sa_z s))%nat ->
    holds_array (b' "wkm"%string (sat_name "mass_" j sfx)) (List.length (idx s)) (fun m => nth (nth m (idx s) 0%nat) (sa_mass s) 0) /\
    holds_array (b' "wkm"%string (sat_name "k_h_" j sfx)) (Z.to_nat (sa_nk s)) (sat_k s) /\
    exists W, holds_table (b' "wkm"%string (sat_name "w_km_" j sfx)) (List.length (idx s)) (Z.to_nat (sa_nk s)) W /\
      forall G m k, (m < List.length (idx s))%nat ->
        wkm_f_ell G (sa_slope s) (sa_ell_max s) (List.length (ell_values (sa_ell_max s))) (sat_moment ht s j (nth m (idx s) 0%nat) (sat_k s k)) = Ok (W m k).
  Proof.
    intros Rn. destruct (run_left Rn) as (ang & An & ->). destruct Says as (O & B & G & A).
    pose proof (grid_left s sfx (fun j => grid2 (List.length (idx s)) (Z.to_nat (sa_nk s)) (fun m k => lr_wkm (lr_uell ht c (inp s) j m (sat_k s k)) ang)) (picked 0 (idx s) (sa_mass s)) (row (Z.to_nat (sa_nk s)) (sat_k s)) b (options_tail _ _ _ O)) as L.
    cbv zeta in L. destruct L as [L1 L2]. split; [exact L1|]. intros j J. destruct (L2 j J) as (M & K & W). unfold table_puts. fold (grid_entries s sfx (fun j => grid2 (List.length (idx s)) (Z.to_nat (sa_nk s)) (fun m k => lr_wkm (lr_uell ht c (inp s) j m (sat_k s k)) ang)) (picked 0 (idx s) (sa_mass s)) (row (Z.to_nat (sa_nk s)) (sat_k s))).
    rewrite M, K, W. split.
    { exists (picked 0 (idx s) (sa_mass s)). split; [reflexivity|]. split; [apply picked_length|]. intros m Hm. now apply picked_at. }
    split; [now apply holds_row|]. exists (fun m k => lr_wkm (sat_moment ht s j (nth m (idx s) 0%nat) (sat_k s k)) ang). split.
    - apply holds_grid. intros m k Hm Hk. f_equal. apply FunctionalExtensionality.functional_extensionality. intros e. now apply (uell_is ht _ _ _ _ _ _ O C F).
    - intros G' m k Hm. now apply wkm_class.
  Qed.
End Left.

(** ** The class *)
Lemma class_pick (s : satellites) {A} (differ : A -> A -> bool) (d : A) q : (1 <= sa_nmass s <= Z.of_nat (List.length (sa_mass s)))%Z -> List.length q = List.length (sa_mass s) ->
  (forall i, (i < List.length (sa_mass s) - 1)%nat -> differ (nth i q d) (nth (List.length (sa_mass s) - 1) q d) = true) ->
  differ (nth (List.length (sa_mass s) - 1) q d) (nth (List.length (sa_mass s) - 1) q d) = false ->
  downsample differ true (List.length (sa_mass s)) (Z.to_nat (sa_nmass s)) q = Ok (picked d (idx s) q).
Proof.
  intros N L D E. unfold idx, index_of. destruct (Nat.eqb_spec (List.length (sa_mass s)) (Z.to_nat (sa_nmass s))) as [Q|Q].
  - unfold downsample. cbn [negb]. rewrite Q, Nat.eqb_refl. f_equal. symmetry. apply pick_all. now rewrite <- Q.
  - apply kept_same; try assumption. lia.
Qed.
Lemma neq_true x y : x <> y -> neqR x y = true. Proof. intros H. unfold neqR. now destruct (Req_EM_T x y). Qed.
Lemma neq_false x : neqR x x = false. Proof. unfold neqR. now destruct (Req_EM_T x x). Qed.
Lemma class_masses s : (1 <= sa_nmass s <= Z.of_nat (List.length (sa_mass s)))%Z -> NoDup (sa_mass s) -> class_mass s = Ok (picked 0 (idx s) (sa_mass s)).
Proof.
  intros N D. apply class_pick; try assumption; [reflexivity| |apply neq_false]. intros i I. apply neq_true. intros Z. apply (NoDup_nth (sa_mass s) 0) in Z; try lia. exact D.
Qed.
Lemma columns_nth t n m : (m < n)%nat -> nth m (columns t n) [] = map (fun r => nth m r 0) t.
Proof.
  intros H. unfold columns. rewrite nth_indep with (d' := (fun m => map (fun r : list R => nth m r 0) t) 0%nat) by (now rewrite map_length, seq_length).
  rewrite (map_nth (fun m => map (fun r : list R => nth m r 0) t)), seq_nth by exact H. reflexivity.
Qed.
Lemma cell_column t m j : (j < List.length t)%nat -> nth j (map (fun r => nth m r 0) t) 0 = cell t j m.
Proof. intros J. unfold cell. rewrite nth_indep with (d' := (fun r : list R => nth m r 0) []) by (now rewrite map_length). apply (map_nth (fun r : list R => nth m r 0)). Qed.
Lemma all_differ_cells t m n : (forall j, (j < List.length t)%nat -> cell t j m <> cell t j n) -> all_differ (map (fun r => nth m r 0) t) (map (fun r => nth n r 0) t) = true.
Proof.
  intros H. unfold all_differ. apply forallb_forall. intros p I. apply (In_nth _ _ (0, 0)) in I. destruct I as (j & J & <-). rewrite combine_length, !map_length, Nat.min_id in J.
  rewrite combine_nth by (now rewrite !map_length). cbn [fst snd]. rewrite !cell_column by exact J. apply neq_true. now apply H.
Qed.
Lemma class_tables s t : (1 <= sa_nmass s <= Z.of_nat (List.length (sa_mass s)))%Z -> (1 <= List.length t)%nat ->
  (forall m, (m < List.length (sa_mass s) - 1)%nat -> forall j, (j < List.length t)%nat -> cell t j m <> cell t j (List.length (sa_mass s) - 1)) ->
  class_table s t = Ok (picked [] (idx s) (columns t (List.length (sa_mass s)))).
Proof.
  intros N T H. apply class_pick; try assumption.
  - unfold columns. now rewrite map_length, seq_length.
  - intros i I. rewrite !columns_nth by lia. apply all_differ_cells. now apply H.
  - rewrite columns_nth by lia. apply all_differ_refl. destruct t; [cbn in T; lia|discriminate].
Qed.
Lemma last_nth (l : list R) : last l 0 = nth (List.length l - 1) l 0.
Proof. induction l as [|x l IH]; [reflexivity|]. destruct l as [|y l]; [reflexivity|]. change (last (x :: y :: l) 0) with (last (y :: l) 0). rewrite IH. cbn. now rewrite Nat.sub_0_r. Qed.
Lemma class_value G ht s j m k : sat_fits s -> no_ties s -> (1 <= sa_nmass s <= Z.of_nat (List.length (sa_mass s)))%Z -> (j < List.length (sa_z s))%nat -> (m < List.length (idx s))%nat ->
  class_wkm G ht s j m k = wkm_f_ell G (sa_slope s) (sa_ell_max s) (List.length (ell_values (sa_ell_max s))) (sat_moment ht s j (nth m (idx s) 0%nat) k).
Proof.
  intros (F1 & F2 & F3 & F4 & F5 & F6 & F7) T N J M. unfold class_wkm.
  rewrite (class_tables s (sa_c s) N); [|rewrite F4; lia|intros i I j' J'; rewrite F4 in J'; exact (proj1 (proj2 (T i I) j' J'))]. cbn [bind].
  rewrite (class_tables s (sa_rs s) N); [|rewrite F6; lia|intros i I j' J'; rewrite F6 in J'; exact (proj2 (proj2 (T i I) j' J'))]. cbn [bind].
  assert (V : class_rvir s = Ok (picked 0 (idx s) (sa_rvir s))).
  { apply class_pick; try assumption; [|apply neq_false]. intros i I. apply neq_true. destruct (T i I) as [T1 _]. intros Q. apply T1. rewrite Q. rewrite <- F3. symmetry. apply last_nth. }
  rewrite V. cbn [bind]. f_equal. apply FunctionalExtensionality.functional_extensionality. intros e. unfold sat_moment.
  assert (I : (nth m (idx s) 0 < List.length (sa_mass s))%nat). { apply (index_in _ (Z.to_nat (sa_nmass s))); [lia|]. apply nth_In. exact M. }
  assert (P : forall t, List.length t = List.length (sa_z s) -> nth j (nth m (picked [] (idx s) (columns t (List.length (sa_mass s)))) []) 0 = cell t j (nth m (idx s) 0%nat)).
  { intros t L. unfold picked. rewrite nth_indep with (d' := (fun i => nth i (columns t (List.length (sa_mass s))) []) 0%nat) by (now rewrite map_length).
    rewrite (map_nth (fun i => nth i (columns t (List.length (sa_mass s))) [])). rewrite columns_nth by exact I. apply cell_column. lia. }
  rewrite !P by assumption. rewrite picked_at by exact M. reflexivity.
Qed.
