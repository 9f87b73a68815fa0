(** Lemmas about LhModel: the block of a successful run, in terms of the class HOD; which runs succeed. *)
From Coq Require Import Ascii ZArith Lia Lra FunctionalExtensionality.
From Verif Require Import Base Quad Interp InterpFacts FftModel PipeModel PipeSpec PipeFacts HodModel OptModel ChainModel PredModel MiniModel AupModel AupSpec LiaModel LiaSpec LhModel LhSpec LhFacts LhFacts2 LhFacts3 LhFacts4 LhFacts5 LhFacts6.
Open Scope R_scope.

Lemma least_in l : l <> [] -> In (least l) l.
Proof.
  intros H. assert (G : forall m d, fold_right Rmin d m = d \/ In (fold_right Rmin d m) m).
  { induction m as [|x m IH]; intros d; [now left|]. cbn. destruct (Rle_dec x (fold_right Rmin d m)); [rewrite Rmin_left by assumption; right; now left|]. rewrite Rmin_right by lra. destruct (IH d) as [E|E]; [left; exact E|right; right; exact E]. }
  unfold least. destruct (G l (hd 0 l)) as [E|E]; [|exact E]. rewrite E. destruct l; [contradiction|now left].
Qed.
Lemma least_le l x : In x l -> least l <= x.
Proof.
  unfold least. generalize (hd 0 l). intros d. induction l as [|y l IH]; intros I; [contradiction|]. cbn. destruct I as [->|I]; [apply Rmin_l|]. eapply Rle_trans; [apply Rmin_r|now apply IH].
Qed.
Lemma most_in l : l <> [] -> In (most l) l.
Proof.
  intros H. assert (G : forall m d, fold_right Rmax d m = d \/ In (fold_right Rmax d m) m).
  { induction m as [|x m IH]; intros d; [now left|]. cbn. destruct (Rle_dec x (fold_right Rmax d m)); [|rewrite Rmax_left by lra; right; now left]. rewrite Rmax_right by assumption. destruct (IH d) as [E|E]; [left; exact E|right; right; exact E]. }
  unfold most. destruct (G l (hd 0 l)) as [E|E]; [|exact E]. rewrite E. destruct l; [contradiction|now left].
Qed.
Lemma most_ge l x : In x l -> x <= most l.
Proof.
  unfold most. generalize (hd 0 l). intros d. induction l as [|y l IH]; intros I; [contradiction|]. cbn. destruct I as [->|I]; [apply Rmax_l|]. eapply Rle_trans; [now apply IH|apply Rmax_r].
Qed.
Lemma in_row n f x : In x (row n f) <-> exists j, (j < n)%nat /\ x = f j.
Proof.
  unfold row. rewrite in_map_iff. split.
  - intros (j & <- & I). apply in_seq in I. exists j. split; [lia|reflexivity].
  - intros (j & L & ->). exists j. split; [reflexivity|apply in_seq; lia].
Qed.
Lemma some_negative_spec n m f : some_negative n m f = false <-> forall j k, (j < n)%nat -> (k < m)%nat -> 0 <= f j k.
Proof.
  unfold some_negative. split.
  - intros H j k J K. destruct (Rlt_dec (f j k) 0) as [L|L]; [|lra]. exfalso.
    assert (E : existsb (fun j => existsb (fun k => if Rlt_dec (f j k) 0 then true else false) (seq 0 m)) (seq 0 n) = true); [|congruence].
    apply existsb_exists. exists j. split; [apply in_seq; lia|]. apply existsb_exists. exists k. split; [apply in_seq; lia|]. now destruct (Rlt_dec (f j k) 0).
  - intros H. destruct (existsb _ _) eqn:E; [|reflexivity]. exfalso. apply existsb_exists in E. destruct E as (j & J & E). apply in_seq in J. apply existsb_exists in E. destruct E as (k & K & E). apply in_seq in K.
    destruct (Rlt_dec (f j k) 0) as [L|L]; [|discriminate]. specialize (H j k ltac:(lia) ltac:(lia)). lra.
Qed.
Lemma table_fits_spec z n p : table_fits z n p = true <-> (2 <= List.length z)%nat /\ List.length p = List.length z /\ forall r, In r p -> List.length r = n.
Proof.
  unfold table_fits. rewrite !Bool.andb_true_iff, Nat.leb_le, Nat.eqb_eq, forallb_forall. split.
  - intros ((A & B) & C). repeat split; try assumption. intros r I. apply Nat.eqb_eq. now apply C.
  - intros (A & B & C). repeat split; try assumption. intros r I. apply Nat.eqb_eq. now apply C.
Qed.
Lemma puts_need over l : forall b b' s n v, do_puts over l b = (b', Ok tt) -> In (Plain s n v) l -> b s n = None.
Proof.
  induction l as [|p l IH]; intros b b' s n v H I; [contradiction|]. cbn [do_puts] in H. apply then_ok in H. destruct H as [H1 H2]. destruct (do_put over p b) as [b1 r] eqn:E. cbn [fst snd] in *. subst r.
  destruct I as [->|I]; [exact (do_put_needs _ _ _ _ E)|]. specialize (IH _ _ _ _ _ H2 I). rewrite (do_put_ok _ _ _ _ E) in IH.
  destruct (b s n) eqn:B; [|reflexivity]. exfalso. apply (entries_kept (entries p) b s n); [now rewrite B|exact IH].
Qed.
Section Final.
  Variables (over : bool) (missing wrong : string) (rows : string -> res (list (R * R * R))) (opens : string -> res unit).
  Variables (o : options) (b : dblock) (sec osec vals : string) (bias : bool) (c : hod_ctx) (md : hod_model) (c' : hconfig).
  Hypothesis Says : hod_says rows o b sec osec vals bias c md.
  Hypothesis Apart : apart sec osec vals.
  Hypothesis Set_ : lh_setup missing wrong rows opens o = Ok c'.
  Lemma apart_here : apart (h_section c') (h_obssec c') (h_values c').
  Proof. rewrite (is_sec _ _ _ _ _ _ _ _ _ _ _ _ _ Says Set_), (is_osec _ _ _ _ _ _ _ _ _ _ _ _ _ Says Set_), (is_vals _ _ _ _ _ _ _ _ _ _ _ _ _ Says Set_). exact Apart. Qed.
  Let S_ := is_set _ _ _ _ _ _ _ _ _ _ _ _ _ Says Set_.
  Let values_apart : h_values c' <> h_section c' /\ h_values c' <> h_obssec c'. Proof. apply (ap c' apart_here). now left. Qed.
  Let hmf_apart : "hmf"%string <> h_section c' /\ "hmf"%string <> h_obssec c'. Proof. apply (ap c' apart_here). cbn. tauto. Qed.
  Let bias_apart : "halobias"%string <> h_section c' /\ "halobias"%string <> h_obssec c'. Proof. apply (ap c' apart_here). cbn. tauto. Qed.
  Let h_apart : "cosmological_parameters"%string <> h_section c' /\ "cosmological_parameters"%string <> h_obssec c'. Proof. apply (ap c' apart_here). cbn. tauto. Qed.
  Section Ran.
    Variable b' : dblock.
    Hypothesis Ran : lh_execute over c' b = (b', Ok tt).
    (** The whole of a bin. *)
    Definition bin_is (k : nat) (x : lh_object) (hb : A2) (h : R) : Prop :=
      lh_cen x = compute_hod_cen c md k /\ lh_sat x = compute_hod_sat c md k /\ lh_tot x = compute_hod c md k /\ (forall (f : A3) j, lh_density x (f k) j = mass_integral c f k j) /\
      (forall (f : A3) j, lh_mass x (f k) j = mean_mass_integral c f k j) /\ (bias = true -> forall (f : A3) t j, lh_bias x hb (f k) j / t k j = bias_integral c t f k j) /\
      (forall p, md = Cacciato p -> (forall j m, lh_fstar x j m = star_frac c (COF c p) k j m) /\ (forall y, unit_scale c y = y * h) /\
         forall f j o, lh_obs_func x f j o = obs_func_of c (fun b j m o => f p (hod_obs (c_set c) b j o) (c_mass c m)) k j o).
    Lemma bin_block k : (k < nbins (c_set c))%nat -> exists kw i h zb pb, bin_is k (lh_bin c' i kw k) (fun j => at_z zb pb (h_z c' k j)) h /\ c_nm c = List.length (i_mass i) /\ c_mass c = at_ (i_mass i) /\
      (forall base v, In (base, v) (sec_list c' i kw k h zb pb) -> b' sec (PipeSpec.bin_name base (nbins (c_set c)) k) = Some v) /\
      (forall base v, In (base, v) (obs_list c' i kw k) -> b' osec (base ++ "_" ++ dec (k + 1))%string = Some v).
    Proof.
      intros L. destruct (run_ok over c' values_apart h_apart bias_apart hmf_apart b b' Ran) as (names & i0 & kw0 & ext & M & I & R & P & X & B).
      destruct (is_halos _ _ _ _ _ _ _ _ _ _ _ _ _ Says Set_) as (mass & z & dn & I' & Q1 & Q2 & Q3 & Q4 & Q5 & Q6). rewrite I' in I. injection I as <-. set (i := {| i_dn := dn |}) in *.
      assert (L' : (k < h_nbins c')%nat) by (rewrite (proj1 S_); exact L).
      destruct (sec_value c' apart_here b b' names i kw0 ext R X B k L') as (kw & h & zb & pb & D & V). destruct (obs_value c' apart_here b b' names i kw0 ext R X B k L') as (kw' & D' & V').
      assert (kw' = kw) by (destruct D as (D & _); congruence). subst kw'. exists kw, i, h, zb, pb. destruct D as (D1 & D2 & D3 & D4 & D5 & D6).
      split; [|split; [exact Q1|split; [exact Q2|split]]].
      - unfold bin_is. split; [exact (same_cen _ _ _ _ _ _ _ _ _ _ _ _ _ Says Set_ names k kw mass z dn M L D1 Q2)|]. split; [exact (same_sat _ _ _ _ _ _ _ _ _ _ _ _ _ Says Set_ names k kw mass z dn M L D1 Q2)|].
        split; [exact (same_tot _ _ _ _ _ _ _ _ _ _ _ _ _ Says Set_ names k kw mass z dn M L D1 Q2)|]. split; [intros f j; exact (same_density _ _ _ _ _ _ _ _ _ _ _ _ _ Says Set_ k kw mass z dn Q1 Q2 Q3 Q4 Q5 f j)|].
        split; [intros f j; exact (same_mean _ _ _ _ _ _ _ _ _ _ _ _ _ Says Set_ k kw mass z dn Q1 Q2 Q3 Q4 Q5 f j)|]. split.
        + intros T f t j. destruct (Q6 T) as (hb & B1 & B2 & B3). pose proof (is_bias _ _ _ _ _ _ _ _ _ _ _ _ _ Says Set_) as T'. rewrite T in T'. destruct (D6 T') as (E1 & E2 & _). assert (zb = z) by congruence. assert (pb = hb) by congruence. subst zb pb.
          exact (same_bias _ _ _ _ _ _ _ _ _ _ _ _ _ Says Set_ k kw mass z dn Q1 Q2 Q3 Q4 Q5 hb f t j B3).
        + intros p E. split; [intros j m; exact (same_fstar _ _ _ _ _ _ _ _ _ _ _ _ _ Says Set_ names k kw mass z dn M D1 Q2 p j m E)|]. split.
          * apply (is_factor _ _ _ _ _ _ _ _ _ _ _ _ _ Says Set_). apply D5. exact (names_cacciato _ _ _ _ _ _ _ _ _ _ _ _ _ Says Set_ p E).
          * intros f j q. exact (same_obs_func _ _ _ _ _ _ _ _ _ _ _ _ _ Says Set_ names k kw mass z dn M D1 Q1 Q2 Q3 Q4 Q5 f p j q E).
      - intros base v J. rewrite <- (is_sec _ _ _ _ _ _ _ _ _ _ _ _ _ Says Set_). rewrite <- (proj1 S_). now apply V.
      - intros base v J. rewrite <- (is_osec _ _ _ _ _ _ _ _ _ _ _ _ _ Says Set_). now apply V'.
    Qed.
  End Ran.
End Final.
