(** Lemmas about LhModel: the block after a successful run. *)
From Coq Require Import Ascii ZArith Lia Lra.
From Verif Require Import Base Quad Interp FftModel PipeModel PipeSpec PipeFacts PipeFacts6 HodModel OptModel ChainModel PredModel MiniModel AupModel LiaModel LiaSpec LhModel LhSpec LhFacts LhFacts2 LhFacts3.
Open Scope R_scope.

Lemma suffix_last base n k : n <> 1%nat -> In (last_char (base ++ suffix n k) "0"%char) digits.
Proof. intros H. unfold suffix. destruct (Nat.eqb_spec n 1); [contradiction|]. apply numbered_last. Qed.
Lemma app_empty (s : string) : (s ++ "")%string = s.
Proof. induction s as [|a s IH]; [reflexivity|]. cbn. now rewrite IH. Qed.
Lemma suffix_reserved base n k : ~ In base reserved -> ~ In (base ++ suffix n k)%string reserved.
Proof.
  intros N I. destruct (Nat.eq_dec n 1) as [->|H]; [apply N; unfold suffix in I; cbn [Nat.eqb] in I; now rewrite app_empty in I|].
  pose proof (suffix_last base n k H) as L. revert L. apply unnumbered_b.
  unfold reserved in I. repeat (destruct I as [<-|I]; [reflexivity|]). contradiction.
Qed.
Lemma or_cong (A B C D : Prop) : (A <-> B) -> (C <-> D) -> (A \/ C <-> B \/ D). Proof. tauto. Qed.
Section Whole.
  Variable over : bool.
  Variable c : hconfig.
  Hypothesis apart_c : apart (h_section c) (h_obssec c) (h_values c).
  Lemma so : h_section c <> h_obssec c. Proof. exact (proj1 apart_c). Qed.
  Lemma ap s : In s [h_values c; "hmf"; "halobias"; "cosmological_parameters"]%string -> s <> h_section c /\ s <> h_obssec c.
  Proof. exact (proj2 apart_c s). Qed.

  (** The lists of the last part. *)
  Definition ext_obs (i : hinput) (kw : string -> R) : list (string * bval) :=
    let z1 := linspace (least (all_z c)) (most (all_z c)) 15 in
    let range := obs_range (all_obs c) 100 in
    let x := lh_new c i kw 15 z1 100 (fun _ => range) in
    let t f := BTab (grid2 15 100 (fun j o => ln ten * lh_obs_func x f j o * range o)) in
    if (h_save c && String.eqb (h_mode c) "obs_onebin")%bool then
      [("z_bin", BArr (row 15 z1)); ("obs_val", BArr (row 100 range)); ("obs_func", t cof); ("obs_func_c", t cof_cen); ("obs_func_s", t cof_sat)]%string else [].
  Definition med_obs (i : hinput) (kw : string -> R) : list (string * bval) :=
    if (h_save c && String.eqb (h_mode c) "obs_zmed")%bool then
      let r := obs_range (all_obs c) (h_nobs c) in
      let y := lh_new c i kw 1 (fun _ => h_zmed c) (h_nobs c) (fun _ => r) in
      let t f := BArr (row (h_nobs c) (fun o => ln ten * lh_obs_func y f 0 o * r o)) in
      [("obs_val_med", BArr (row (h_nobs c) r)); ("obs_func_med", t cof); ("obs_func_med_c", t cof_cen); ("obs_func_med_s", t cof_sat);
       ("halo_mass_med", BArr (i_mass i)); ("mean_obs_halo_mass_relation", BArr (row 1 (fun _ => mean_obs_c (lh_cacciato y) (at_ (i_mass i) 0))))]%string else [].
  Definition ext_sec (i : hinput) (kw : string -> R) (h : R) : list (string * bval) :=
    let z1 := linspace (least (all_z c)) (most (all_z c)) 15 in
    let x := lh_new c i kw 15 z1 100 (fun _ => obs_range (all_obs c) 100) in
    [("z_extended", BArr (row 15 z1)); ("mass_extended", BArr (i_mass i)); ("f_star_extended", BTab (grid2 15 (List.length (i_mass i)) (fun j m => lh_fstar x j m * h)))]%string.
  Ltac hit := first [left; reflexivity | right; hit].
  Lemma named_plain0 sec n v : named sec "" (Plain sec n v) [(n, v)].
  Proof. rewrite <- (app_empty n) at 1. apply named_plain. Qed.
  Lemma named_grid0 sec nx x ny y n t : named sec "" (Grid sec nx x ny y n t) [(nx, BArr x); (ny, BArr y); (n, BTab t)].
  Proof. rewrite <- (app_empty nx) at 1. rewrite <- (app_empty ny) at 1. rewrite <- (app_empty n) at 1. apply named_grid. Qed.
  Lemma ext_has i kw b ext : h_model c = "Cacciato"%string -> lh_extended c i kw b = Ok ext -> exists h, h_factor c b = Ok h /\
    forall s n v, In (s, n, v) (flat_map entries ext) <->
      (s = h_section c /\ In (n, v) (ext_sec i kw h)) \/ (s = h_obssec c /\ exists base, n = (base ++ "_1")%string /\ In (base, v) (ext_obs i kw)) \/ (s = h_obssec c /\ In (n, v) (med_obs i kw)).
  Proof.
    intros M E. unfold lh_extended in E. rewrite M in E. cbn [String.eqb Ascii.eqb Bool.eqb] in E. cbv zeta in E. apply bind_ok in E. destruct E as (h & H & E). exists h. split; [exact H|].
    injection E as <-. intros s n v. cbn [flat_map]. rewrite flat_map_app, !in_app_iff. apply or_cong; [|apply or_cong].
    - rewrite (named_grid0 (h_section c) "z_extended" _ "mass_extended" _ "f_star_extended" _ s n v). split.
      + intros (-> & base & -> & I). rewrite app_empty. split; [reflexivity|exact I].
      + intros (-> & I). split; [reflexivity|]. exists n. split; [now rewrite app_empty|exact I].
    - match goal with |- In _ (flat_map entries ?l) <-> _ => assert (F : exists ls, Forall2 (named (h_obssec c) "_1") l ls /\ forall e, In e (List.concat ls) <-> In e (ext_obs i kw)) end.
      { unfold ext_obs. cbv zeta. destruct (_ && _)%bool; eexists; (split; [repeat (constructor; [apply named_grid|]); constructor|]); cbn [List.concat app]; intros e;
          (split; intros I; repeat (destruct I as [<-|I]; [hit|]); contradiction). }
      destruct F as (ls & F1 & F2). rewrite (named_all _ _ _ _ F1). split; intros (-> & base & -> & I); (split; [reflexivity|]); exists base; (split; [reflexivity|]); now apply F2.
    - match goal with |- In _ (flat_map entries ?l) <-> _ => assert (F : exists ls, Forall2 (named (h_obssec c) "") l ls /\ forall e, In e (List.concat ls) <-> In e (med_obs i kw)) end.
      { unfold med_obs. cbv zeta. destruct (_ && _)%bool; eexists; (split; [repeat (constructor; [apply named_plain0|]); constructor|]); cbn [List.concat app]; intros e;
          (split; intros I; repeat (destruct I as [<-|I]; [hit|]); contradiction). }
      destruct F as (ls & F1 & F2). rewrite (named_all _ _ _ _ F1). split.
      + intros (-> & base & -> & I). rewrite app_empty. split; [reflexivity|]. now apply F2.
      + intros (-> & I). split; [reflexivity|]. exists n. split; [now rewrite app_empty|now apply F2].
  Qed.
  Lemma ext_none i kw b ext : h_model c <> "Cacciato"%string -> lh_extended c i kw b = Ok ext -> ext = [].
  Proof. intros M E. unfold lh_extended in E. destruct (String.eqb_spec (h_model c) "Cacciato"); [contradiction|]. now injection E. Qed.
  Lemma labels_has s n v : In (s, n, v) (flat_map entries (lh_labels c)) <-> h_save c = true /\ s = h_obssec c /\ ((n = "obs_func_definition"%string /\ v = BStr "obs_func * obs * ln(10)") \/ (n = "observable_mode"%string /\ v = BStr (h_mode c))).
  Proof.
    unfold lh_labels. destruct (h_save c); cbn [flat_map entries app].
    - split.
      + intros [I|[I|[]]]; injection I as <- <- <-; (split; [reflexivity|]); (split; [reflexivity|]); [now left|now right].
      + intros (_ & -> & [[-> ->]|[-> ->]]); [now left|right; now left].
    - split; [contradiction|]. intros (D & _). discriminate.
  Qed.
  Lemma head_has s n v : In (s, n, v) (flat_map entries (head_puts c)) <-> s = h_section c /\ ((n = "nbins"%string /\ v = BInt (Z.of_nat (h_nbins c))) \/ (n = "observable_z"%string /\ v = BInt (if h_obsz c then 1 else 0))).
  Proof.
    cbn [head_puts flat_map entries app]. split.
    - intros [I|[I|[]]]; injection I as <- <- <-; (split; [reflexivity|]); [now left|now right].
    - intros (-> & [[-> ->]|[-> ->]]); [now left|right; now left].
  Qed.
  Lemma in_all b i names ext s n v : In (s, n, v) (all_entries c b i names ext) <->
    In (s, n, v) (flat_map entries (head_puts c)) \/ (exists nb, (nb < h_nbins c)%nat /\ In (s, n, v) (bin_entries c b i names nb)) \/ In (s, n, v) (flat_map entries (lh_labels c)) \/ In (s, n, v) (flat_map entries ext).
  Proof.
    unfold all_entries. rewrite !in_app_iff. rewrite (in_flat_map (bin_entries c b i names) (seq 0 (h_nbins c))). split; (intros [H|[H|H]]; [now left|right; left|right; right; exact H]).
    - destruct H as (nb & I & J). apply in_seq in I. exists nb. split; [lia|exact J].
    - destruct H as (nb & I & J). exists nb. split; [apply in_seq; lia|exact J].
  Qed.
  Section After.
    Variables (b b' : dblock) (names : list string) (i : hinput) (kw0 : string -> R) (ext : list lput).
    Hypothesis R : forall nb, (nb < h_nbins c)%nat -> bin_reads c b i names nb.
    Hypothesis X : lh_extended c i kw0 b = Ok ext.
    Hypothesis B : b' = put_entries (all_entries c b i names ext) b.
    Lemma ext_sec_names s n v : In (s, n, v) (flat_map entries ext) -> s = h_section c -> In n reserved.
    Proof.
      intros I ->. destruct (string_dec (h_model c) "Cacciato") as [M|M].
      - destruct (ext_has _ _ _ _ M X) as (h & _ & E). apply E in I. destruct I as [[_ I]|[[I _]|[I _]]]; [|now destruct (so)|now destruct (so)].
        unfold ext_sec in I. cbv zeta in I. destruct I as [I|[I|[I|[]]]]; injection I as <- _; cbn; tauto.
      - now rewrite (ext_none _ _ _ _ M X) in I.
    Qed.
    (** The HOD section, bin by bin. *)
    Lemma sec_value nb : (nb < h_nbins c)%nat -> exists kw h zb pb, bin_data c b i names nb kw h zb pb /\
      forall base v, In (base, v) (sec_list c i kw nb h zb pb) -> b' (h_section c) (PipeSpec.bin_name base (h_nbins c) nb) = Some v.
    Proof.
      intros L. destruct (bin_has c b i names nb (R nb L)) as (kw & h & zb & pb & D & E). exists kw, h, zb, pb. split; [exact D|]. intros base v I. rewrite B, <- suffix_name.
      apply entries_value.
      - apply in_all. right. left. exists nb. split; [exact L|]. apply E. left. split; [reflexivity|]. exists base. split; [reflexivity|exact I].
      - intros v' I'. apply in_all in I'. pose proof (suffix_reserved base (h_nbins c) nb (sec_not_reserved c _ _ _ _ _ _ _ _ I)) as N. destruct I' as [I'|[I'|[I'|I']]].
        + apply head_has in I'. destruct I' as (_ & [[E' _]|[E' _]]); destruct N; rewrite E'; cbn; tauto.
        + destruct I' as (nb' & L' & I'). destruct (bin_has c b i names nb' (R nb' L')) as (kw' & h' & zb' & pb' & D' & E'). apply E' in I'. destruct I' as [(_ & base' & Q & J)|(Q & _)]; [|now destruct so].
          unfold lh_suffix in Q. rewrite !suffix_name in Q. apply bin_name_same in Q; [|exact L|exact L']. destruct Q as [<- <-].
          assert (K : In (PipeSpec.bin_name base (h_nbins c) nb, v) [(PipeSpec.bin_name base (h_nbins c) nb, v)]) by now left.
          destruct D as (D1 & _ & _ & _ & D2 & D3), D' as (D1' & _ & _ & _ & D2' & D3'). assert (kw' = kw) by congruence. subst kw'.
          assert (S : sec_list c i kw nb h' zb' pb' = sec_list c i kw nb h zb pb).
          { unfold sec_list. cbv zeta. f_equal. f_equal.
            - destruct (String.eqb_spec (h_model c) "Cacciato") as [M|M]; [|reflexivity]. specialize (D2 M). specialize (D2' M). assert (h' = h) by congruence. now subst h'.
            - destruct (h_bias c); [|reflexivity]. destruct (D3 eq_refl) as (A1 & A2 & _), (D3' eq_refl) as (A1' & A2' & _). assert (zb' = zb) by congruence. assert (pb' = pb) by congruence. now subst. }
          rewrite S in J. exact (nodup_once _ _ _ _ (sec_nodup c i kw nb h zb pb) J I).
        + apply labels_has in I'. destruct I' as (_ & Q & _). now destruct so.
        + now destruct (N (ext_sec_names _ _ _ I' eq_refl)).
    Qed.
    Lemma head_value : b' (h_section c) "nbins"%string = Some (BInt (Z.of_nat (h_nbins c))) /\ b' (h_section c) "observable_z"%string = Some (BInt (if h_obsz c then 1 else 0)).
    Proof.
      assert (U : forall n, n = "nbins"%string \/ n = "observable_z"%string -> forall v, In (h_section c, n, v) (all_entries c b i names ext) -> In (h_section c, n, v) (flat_map entries (head_puts c))).
      { intros n N v I. apply in_all in I. destruct I as [I|[I|[I|I]]]; [exact I| | |].
        - destruct I as (nb & L & I). destruct (bin_has c b i names nb (R nb L)) as (kw & h & zb & pb & D & E). apply E in I. destruct I as [(_ & base & Q & J)|(Q & _)]; [|now destruct so].
          exfalso. apply (suffix_reserved base (h_nbins c) nb (sec_not_reserved c _ _ _ _ _ _ _ _ J)). unfold lh_suffix in Q. rewrite <- Q. cbn. destruct N; auto.
        - apply labels_has in I. destruct I as (_ & Q & _). now destruct so.
        - destruct (string_dec (h_model c) "Cacciato") as [M|M]; [|now rewrite (ext_none _ _ _ _ M X) in I].
          destruct (ext_has _ _ _ _ M X) as (h & _ & E). apply E in I. destruct I as [[_ I]|[[I _]|[I _]]]; [|now destruct so|now destruct so].
          unfold ext_sec in I. cbv zeta in I. destruct I as [I|[I|[I|[]]]]; injection I as <- _; destruct N; discriminate. }
      rewrite B. split; apply entries_value.
      - apply in_all. left. apply head_has. split; [reflexivity|]. left. now split.
      - intros v I. apply U in I; [|now left]. apply head_has in I. destruct I as (_ & [[_ Q]|[Q _]]); [exact Q|discriminate].
      - apply in_all. left. apply head_has. split; [reflexivity|]. right. now split.
      - intros v I. apply U in I; [|now right]. apply head_has in I. destruct I as (_ & [[Q _]|[_ Q]]); [discriminate|exact Q].
    Qed.
    (** The section of observables. *)
    Lemma numbered_not a n (s : string) : existsb (Ascii.eqb (last_char s "0"%char)) digits = false -> (a ++ "_" ++ dec n)%string <> s.
    Proof. intros H E. apply (unnumbered_b s H). rewrite <- E. apply numbered_last. Qed.
    Lemma med_names n v kw : In (n, v) (med_obs i kw) -> existsb (Ascii.eqb (last_char n "0"%char)) digits = false.
    Proof. unfold med_obs. cbv zeta. destruct (_ && _)%bool; [|contradiction]. intros I. repeat (destruct I as [I|I]; [injection I as <- _; reflexivity|]). contradiction. Qed.
    Lemma obs_value nb : (nb < h_nbins c)%nat -> exists kw, lh_params c nb names b = Ok kw /\
      forall base v, In (base, v) (obs_list c i kw nb) -> b' (h_obssec c) (base ++ "_" ++ dec (nb + 1))%string = Some v.
    Proof.
      intros L. destruct (bin_has c b i names nb (R nb L)) as (kw & h & zb & pb & D & E). exists kw. split; [apply D|]. intros base v I. rewrite B. apply entries_value.
      - apply in_all. right. left. exists nb. split; [exact L|]. apply E. right. split; [reflexivity|]. exists base. split; [reflexivity|exact I].
      - intros v' I'. apply in_all in I'. destruct I' as [I'|[I'|[I'|I']]].
        + apply head_has in I'. destruct I' as (Q & _). exfalso. now apply so.
        + destruct I' as (nb' & L' & I'). destruct (bin_has c b i names nb' (R nb' L')) as (kw' & h' & zb' & pb' & D' & E'). apply E' in I'.
          destruct I' as [(Q & _)|(_ & base' & Q & J)]; [exfalso; now apply so|]. apply underscore_split in Q. destruct Q as [<- Q]. assert (nb' = nb) by lia. subst nb'.
          assert (kw' = kw) by (destruct D as (D & _), D' as (D' & _); congruence). subst kw'. exact (nodup_once _ _ _ _ (obs_nodup c i kw nb) J I).
        + apply labels_has in I'. destruct I' as (_ & _ & [[Q _]|[Q _]]); exfalso; revert Q; apply numbered_not; reflexivity.
        + exfalso. unfold obs_list in I. destruct (h_save c) eqn:S; [|contradiction]. destruct (String.eqb_spec (h_mode c) "obs_z") as [M|M]; [|contradiction]. destruct (String.eqb_spec (h_model c) "Cacciato") as [C|C]; [|contradiction].
          destruct (ext_has _ _ _ _ C X) as (h0 & _ & F). apply F in I'. destruct I' as [[Q _]|[(_ & base' & _ & J)|(_ & J)]].
          * now apply so.
          * unfold ext_obs in J. cbv zeta in J. rewrite S, M in J. exact J.
          * unfold med_obs in J. cbv zeta in J. rewrite S, M in J. exact J.
    Qed.
    Lemma label_value : h_save c = true -> b' (h_obssec c) "obs_func_definition"%string = Some (BStr "obs_func * obs * ln(10)") /\ b' (h_obssec c) "observable_mode"%string = Some (BStr (h_mode c)).
    Proof.
      intros S. assert (U : forall n, n = "obs_func_definition"%string \/ n = "observable_mode"%string -> forall v, In (h_obssec c, n, v) (all_entries c b i names ext) -> In (h_obssec c, n, v) (flat_map entries (lh_labels c))).
      { intros n N v I. assert (N' : existsb (Ascii.eqb (last_char n "0"%char)) digits = false) by (destruct N as [->| ->]; reflexivity). apply in_all in I. destruct I as [I|[I|[I|I]]]; [| |exact I|].
        - apply head_has in I. destruct I as (Q & _). exfalso. now apply so.
        - destruct I as (nb & L & I). destruct (bin_has c b i names nb (R nb L)) as (kw & h & zb & pb & D & E). apply E in I. destruct I as [(Q & _)|(_ & base & Q & J)]; [exfalso; now apply so|].
          exfalso. symmetry in Q. revert Q. now apply numbered_not.
        - destruct (string_dec (h_model c) "Cacciato") as [M|M]; [|now rewrite (ext_none _ _ _ _ M X) in I].
          destruct (ext_has _ _ _ _ M X) as (h & _ & E). apply E in I. destruct I as [[Q _]|[(_ & base & Q & J)|(_ & J)]]; [exfalso; now apply so| |].
          + exfalso. symmetry in Q. revert Q. change "_1"%string with ("_" ++ dec 1)%string. now apply numbered_not.
          + exfalso. unfold med_obs in J. cbv zeta in J. destruct (_ && _)%bool; [|contradiction]. repeat (destruct J as [J|J]; [injection J as <- _; destruct N; discriminate|]). contradiction. }
      rewrite B. split; apply entries_value.
      - apply in_all. right. right. left. apply labels_has. split; [exact S|]. split; [reflexivity|]. left. now split.
      - intros v I. apply U in I; [|now left]. apply labels_has in I. destruct I as (_ & _ & [[_ Q]|[Q _]]); [exact Q|discriminate].
      - apply in_all. right. right. left. apply labels_has. split; [exact S|]. split; [reflexivity|]. right. now split.
      - intros v I. apply U in I; [|now right]. apply labels_has in I. destruct I as (_ & _ & [[Q _]|[_ Q]]); [discriminate|exact Q].
    Qed.
    Lemma ext_values : h_model c = "Cacciato"%string -> exists h, h_factor c b = Ok h /\
      (forall n v, In (n, v) (ext_sec i kw0 h) -> b' (h_section c) n = Some v) /\
      (forall base v, In (base, v) (ext_obs i kw0) -> b' (h_obssec c) (base ++ "_1")%string = Some v) /\
      (forall n v, In (n, v) (med_obs i kw0) -> b' (h_obssec c) n = Some v).
    Proof.
      intros M. destruct (ext_has _ _ _ _ M X) as (h & H & E). exists h. split; [exact H|]. rewrite B. split; [|split].
      - intros n v I. assert (N : In n reserved). { apply (ext_sec_names (h_section c) n v); [|reflexivity]. apply E. now left. }
        apply entries_value; [apply in_all; right; right; right; apply E; now left|]. intros v' I'. apply in_all in I'.
        assert (Z : n <> "nbins"%string /\ n <> "observable_z"%string). { unfold ext_sec in I. cbv zeta in I. destruct I as [I|[I|[I|[]]]]; injection I as <- _; split; discriminate. }
        destruct I' as [I'|[I'|[I'|I']]].
        + apply head_has in I'. destruct I' as (_ & [[Q _]|[Q _]]); exfalso; now apply Z.
        + destruct I' as (nb & L & I'). destruct (bin_has c b i names nb (R nb L)) as (kw & h' & zb & pb & D & E'). apply E' in I'. destruct I' as [(_ & base & Q & J)|(Q & _)]; [|now destruct so].
          exfalso. apply (suffix_reserved base (h_nbins c) nb (sec_not_reserved c _ _ _ _ _ _ _ _ J)). unfold lh_suffix in Q. now rewrite <- Q.
        + apply labels_has in I'. destruct I' as (_ & Q & _). now destruct so.
        + apply E in I'. destruct I' as [[_ J]|[[Q _]|[Q _]]]; [|now destruct so|now destruct so].
          refine (nodup_once (ext_sec i kw0 h) n v' v _ J I). unfold ext_sec. cbv zeta. cbn [map fst]. repeat (constructor; [intros K; repeat (destruct K as [K|K]; [discriminate K|]); contradiction|]); constructor.
      - intros base v I. assert (O : h_save c = true /\ h_mode c = "obs_onebin"%string). { unfold ext_obs in I. cbv zeta in I. destruct (h_save c); [|contradiction]. destruct (String.eqb_spec (h_mode c) "obs_onebin"); [now split|contradiction]. }
        destruct O as [S O]. apply entries_value; [apply in_all; right; right; right; apply E; right; left; split; [reflexivity|now exists base]|]. intros v' I'. apply in_all in I'.
        destruct I' as [I'|[I'|[I'|I']]].
        + apply head_has in I'. destruct I' as (Q & _). exfalso. now apply so.
        + destruct I' as (nb & L & I'). destruct (bin_has c b i names nb (R nb L)) as (kw & h' & zb & pb & D & E'). apply E' in I'. destruct I' as [(Q & _)|(_ & base' & _ & J)]; [exfalso; now apply so|].
          unfold obs_list in J. rewrite S, O in J. contradiction.
        + apply labels_has in I'. destruct I' as (_ & _ & [[Q _]|[Q _]]); exfalso; revert Q; change "_1"%string with ("_" ++ dec 1)%string; apply numbered_not; reflexivity.
        + apply E in I'. destruct I' as [[Q _]|[(_ & base' & Q & J)|(_ & J)]]; [exfalso; now apply so| |].
          * change "_1"%string with ("_" ++ dec 1)%string in Q. apply underscore_split in Q. destruct Q as [<- _].
            refine (nodup_once (ext_obs i kw0) base v' v _ J I). unfold ext_obs. cbv zeta. destruct (_ && _)%bool; cbn [map fst]; repeat (constructor; [intros K; repeat (destruct K as [K|K]; [discriminate K|]); contradiction|]); constructor.
          * unfold med_obs in J. cbv zeta in J. rewrite S, O in J. contradiction.
      - intros n v I. assert (O : h_save c = true /\ h_mode c = "obs_zmed"%string). { unfold med_obs in I. cbv zeta in I. destruct (h_save c); [|contradiction]. destruct (String.eqb_spec (h_mode c) "obs_zmed"); [now split|contradiction]. }
        destruct O as [S O]. pose proof (med_names _ _ _ I) as N. apply entries_value; [apply in_all; right; right; right; apply E; right; right; now split|]. intros v' I'. apply in_all in I'.
        destruct I' as [I'|[I'|[I'|I']]].
        + apply head_has in I'. destruct I' as (Q & _). exfalso. now apply so.
        + destruct I' as (nb & L & I'). destruct (bin_has c b i names nb (R nb L)) as (kw & h' & zb & pb & D & E'). apply E' in I'. destruct I' as [(Q & _)|(_ & base' & _ & J)]; [exfalso; now apply so|].
          unfold obs_list in J. rewrite S, O in J. contradiction.
        + apply labels_has in I'. destruct I' as (_ & _ & K). exfalso. unfold med_obs in I. cbv zeta in I. destruct (_ && _)%bool; [|contradiction].
          repeat (destruct I as [I|I]; [injection I as <- _; destruct K as [[K _]|[K _]]; discriminate|]). contradiction.
        + apply E in I'. destruct I' as [[Q _]|[(_ & base' & Q & J)|(_ & J)]]; [exfalso; now apply so| |].
          * exfalso. symmetry in Q. revert Q. change "_1"%string with ("_" ++ dec 1)%string. now apply numbered_not.
          * refine (nodup_once (med_obs i kw0) n v' v _ J I). unfold med_obs. cbv zeta. destruct (_ && _)%bool; cbn [map fst]; repeat (constructor; [intros K; repeat (destruct K as [K|K]; [discriminate K|]); contradiction|]); constructor.
    Qed.
  End After.
End Whole.
