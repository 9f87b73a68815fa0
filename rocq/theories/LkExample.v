(** For a Spectra without non-linear mode there is a block on which the legacy module runs and agrees with it. *)
From Coq Require Import ZArith.
From Verif Require Import Base Spec Quad Interp QuadFacts InterpFacts NumFacts IaModel IaFacts2 HodModel PkModel PkSpec PipeModel OptModel FftModel ChainModel MiniModel PredModel AddFacts2 AupModel AupFacts AupFacts3 LiaModel LiaSpec LhModel LhSpec LhFacts LhFacts5 LrModel LrSpec LrFacts4 LkModel LkSpec LkSpec2 LkFacts3 LkFacts4 LkFacts5.
Open Scope R_scope.

Definition kb_config (S : spectra) : kconfig :=
  {| kc_mm := true; kc_gg := true; kc_gm := true; kc_gI := true; kc_mI := true; kc_II := true; kc_response := false; kc_fortuna := false; kc_bnl := false;
     kc_k1 := s_k1 S; kc_k2 := s_k2 S; kc_k1_ia := s_k1_ia S; kc_k2_ia := s_k2_ia S; kc_hod := "hod"; kc_mead := None; kc_dewiggle := false; kc_pm := false; kc_poisson := ""; kc_pop := "" |}.
Definition kb_arrays (S : spectra) : arrays := {| nd_udm := u_dm S; nd_usat := u_sat S; nd_beta := BetaMissing |}.
Definition on (s t : string) (a b : option bval) : option bval := if String.eqb s t then a else b.
Definition kb (S : spectra) (pl : A2) : dblock := fun s n =>
  let ra m f := Some (BArr (row m f)) in let ta m k f := Some (BTab (grid2 m k f)) in let nz := s_nz S in let nk := s_nk S in let nm := s_nm S in let dbl x := Some (BDbl x) in
  on s "hmf" (on n "m_h" (ra nm (s_mass S)) (on n "z" (ra nz (s_zvec S)) (on n "dndlnmh" (ta nz nm (s_dndlnm S)) None)))
  (on s "halobias" (on n "m_h" (ra nm (s_mass S)) (on n "z" (ra nz (s_zvec S)) (on n "b_hb" (ta nz nm (s_bias S)) None)))
  (on s "fourier_nfw_profile" (on n "m_h" (ra nm (s_mass S)) (on n "z" (ra nz (s_zvec S)) (on n "k_h" (ra nk (s_kvec S)) None)))
  (on s "matter_power_lin" (on n "z" (ra nz (s_zvec S)) (on n "k_h" (ra nk (s_kvec S)) (on n "p_k" (ta nz nk pl) None)))
  (on s "growth_parameters" (on n "z" (ra nz (s_zvec S)) (on n "d_z" (ra nz (s_growth S)) None))
  (on s "density" (on n "mean_density0" (dbl (s_rho S 0%nat)) None)
  (on s "cosmological_parameters" (on n "fnu" (dbl 0) (on n "omega_c" (dbl (s_oc S)) (on n "omega_m" (dbl (s_om S)) (on n "omega_b" (dbl (s_ob S)) None))))
  (on s "hod" (on n "nbins" (Some (BInt 1)) (on n "mass" (ra nm (s_mass S)) (on n "z" (ra nz (s_zvec S)) (on n "n_cen" (ta nz nm (sN_c S 0%nat)) (on n "n_sat" (ta nz nm (sN_s S 0%nat))
       (on n "number_density_cen" (ra nz (sn_c S 0%nat)) (on n "number_density_sat" (ra nz (sn_s S 0%nat)) (on n "central_fraction" (ra nz (sF_c S 0%nat)) (on n "satellite_fraction" (ra nz (sF_s S 0%nat))
       (on n "average_halo_mass" (ra nz (fun _ => 1)) None))))))))))
  (on s "ia_large_scale_alignment" (on n "alignment_gi" (ra nz (s_gi S)) (on n "instance" (Some (BStr "constant")) None))
  (on s "ia_small_scale_alignment" (on n "instance" (Some (BStr "constant")) None)
  (on s "wkm" (if String.prefix "w_km_" n then ta nm nk (fun m i => s_wkm S 0%nat i m) else if String.prefix "k_h_" n then ra nk (s_kvec S) else if String.prefix "mass_" n then ra nm (s_mass S) else None)
   None)))))))))).

Record plain (S : spectra) (pl : A2) : Prop := {
  pn_mode : s_mode S = NoNl; pn_ingr : s_ingr S = NoIngr; pn_response : s_response S = false; pn_pm : s_pointmass S = false;
  pn_z : incr (s_nz S) (s_zvec S); pn_k : incr (s_nk S) (s_kvec S); pn_m : incr (s_nm S) (s_mass S); pn_nz : (2 <= s_nz S)%nat; pn_nk : (2 <= s_nk S)%nat; pn_nm : (2 <= s_nm S)%nat;
  pn_k0 : forall i, (i < s_nk S)%nat -> 0 < s_kvec S i; pn_m0 : forall i, (i < s_nm S)%nat -> 0 < s_mass S i; pn_pl : forall j i, (j < s_nz S)%nat -> (i < s_nk S)%nat -> 0 < pl j i;
  pn_rho : forall j, (j < s_nz S)%nat -> s_rho S j = s_rho S 0%nat; pn_poisson : s_poisson S = PConstant 1;
  pn_beta : s_beta_cen S = None /\ s_beta_sat S = None; pn_w : forall j i m, (j < s_nz S)%nat -> (i < s_nk S)%nat -> (m < s_nm S)%nat -> s_wkm S j i m = s_wkm S 0%nat i m /\ 0 < s_wkm S 0%nat i m }.

Lemma row_len n f : List.length (row n f) = n. Proof. unfold row. now rewrite map_length, seq_length. Qed.
Lemma grid_len n m f : List.length (grid2 n m f) = n. Proof. unfold grid2. now rewrite map_length, seq_length. Qed.
Lemma row_nth n f i : (i < n)%nat -> nth i (row n f) 0 = f i.
Proof. intros L. destruct (holds_row n f f) as (l & E & _ & V); [auto|]. injection E as <-. now apply V. Qed.
Lemma grid_nth n m f j i : (j < n)%nat -> (i < m)%nat -> nth i (nth j (grid2 n m f) []) 0 = f j i.
Proof. intros J I. destruct (holds_grid n m f f) as (t & E & _ & V); [auto|]. injection E as <-. now apply V. Qed.
Lemma sized_ok b s n k f : b s n = Some (BArr (row k f)) -> sized b s n k = Ok (row k f).
Proof. intros E. unfold sized, array. rewrite E. cbn [bind]. now rewrite row_len, Nat.eqb_refl. Qed.
Lemma sized_table_ok b s n k m f : b s n = Some (BTab (grid2 k m f)) -> sized_table b s n k m = Ok (grid2 k m f).
Proof.
  intros E. unfold sized_table, table_at. rewrite E. cbn [bind]. rewrite grid_len, Nat.eqb_refl. cbn [andb]. replace (forallb _ _) with true; [reflexivity|]. symmetry. apply forallb_forall. intros r I.
  unfold grid2 in I. apply in_map_iff in I. destruct I as (j & <- & _). apply Nat.eqb_eq. apply row_len.
Qed.
Lemma last_row n f : (1 <= n)%nat -> last (row n f) 0 = f (n - 1)%nat.
Proof. intros L. unfold row. replace n with (n - 1 + 1)%nat at 1 by lia. rewrite seq_app, map_app. cbn. apply last_last. Qed.
Lemma strict_own n f : (2 <= n)%nat -> incr n f -> strict_nodes (row n f) (row n f) = Ok tt.
Proof.
  intros N I. unfold strict_nodes. rewrite row_len. apply Nat.leb_le in N as N'. rewrite N'. cbn [andb]. replace (within _ _) with true; [reflexivity|]. symmetry. apply forallb_forall. intros v V.
  unfold row in V at 1. apply in_map_iff in V. destruct V as (i & <- & B). apply in_seq in B. rewrite last_row by lia. replace (hd 0 (row n f)) with (f 0%nat) by (destruct n as [|n]; [lia|reflexivity]).
  destruct (Rlt_dec _ _) as [L|L]; [exfalso|]; [|destruct (Rlt_dec _ _) as [L'|L']; [exfalso|reflexivity]].
  - pose proof (incr_le n f 0 i I ltac:(lia) ltac:(lia)). lra.
  - pose proof (incr_le n f i (n - 1) I ltac:(lia) ltac:(lia)). lra.
Qed.
Lemma same_refl l : same_list l l = true. Proof. unfold same_list. destruct (list_eq_dec _ _ _); congruence. Qed.

Lemma incr_row n f : incr n f -> incr n (fun e => nth e (row n f) 0).
Proof. intros I i L. rewrite !row_nth by lia. now apply I. Qed.
Lemma node_row fl n f y j : (2 <= n)%nat -> incr n f -> (j < n)%nat -> interp1d fl (List.length (row n f)) (fun e => nth e (row n f) 0) y (f j) = y j.
Proof. intros N I J. rewrite row_len. rewrite <- (row_nth n f j J) at 1. apply (interp1d_node fl n (fun e => nth e (row n f) 0)); [exact N|now apply incr_row|exact J]. Qed.
Lemma prefix_app p s : String.prefix p (p ++ s) = true.
Proof. induction p as [|a p IH]; [now destruct s|]. cbn. destruct (Ascii.ascii_dec a a); [exact IH|congruence]. Qed.

Section Canonical.
  Variables (S : spectra) (pl : A2) (dw : dblock -> list R -> A2 -> res A2).
  Hypothesis H : plain S pl.
  Notation c := (kb_config S).
  Notation b := (kb S pl).
  Lemma kb_asks : asks_alike c S.
  Proof. destruct H. constructor; cbn; try congruence; try reflexivity; now rewrite pn_mode0. Qed.
  Lemma kb_lin : power_says b "matter_power_lin" S pl.
  Proof.
    destruct H. do 3 eexists. split; [reflexivity|]. split; [reflexivity|]. split; [reflexivity|]. intros j i J I. unfold log_table.
    assert (IK : incr (s_nk S) (fun a => ln (nth a (row (s_nk S) (s_kvec S)) 0))).
    { intros a A. rewrite !row_nth by lia. apply ln_increasing; [apply pn_k2; lia|now apply pn_k1]. }
    rewrite row_len. rewrite <- (row_nth (s_nk S) (s_kvec S) i I) at 1. rewrite (interp_node (s_nk S) (fun a => ln (nth a (row (s_nk S) (s_kvec S)) 0))) by assumption.
    pose proof (node_row Extrapolate (s_nz S) (s_zvec S) (fun e => nth i (nth e (grid2 (s_nz S) (s_nk S) pl) []) 0) j pn_nz0 pn_z0 J) as N. cbn [interp1d] in N. rewrite N, grid_nth by assumption. now apply exp_ln, pn_pl0.
  Qed.
  Lemma kb_halos : halos_agree dw (kb_arrays S) c b S pl.
  Proof.
    destruct H. constructor.
    - apply holds_row; auto.
    - apply holds_row; auto.
    - apply holds_row; auto.
    - lia.
    - apply holds_grid; auto.
    - apply holds_grid; auto.
    - reflexivity.
    - reflexivity.
    - do 2 eexists. split; [reflexivity|]. split; [reflexivity|]. intros j J. pose proof (node_row Extrapolate (s_nz S) (s_zvec S) (fun e => nth e (row (s_nz S) (s_growth S)) 0) j pn_nz0 pn_z0 J) as N. cbn [interp1d] in N. rewrite N. now apply row_nth.
    - exists (s_rho S 0%nat). split; [left; reflexivity|exact pn_rho0].
    - left; reflexivity.
    - left; reflexivity.
    - left; reflexivity.
    - left; reflexivity.
    - exists pl. split; [exact kb_lin|]. cbn. intros j i J I. reflexivity.
    - discriminate.
    - congruence.
    - congruence.
  Qed.
  Lemma kb_occupation : occupation_agrees c b 1 0 S.
  Proof.
    destruct H. exists ""%string, (row (s_nz S) (s_zvec S)). split; [left; auto|]. split; [reflexivity|].
    repeat match goal with |- _ /\ _ => split end; eexists; (split; [reflexivity|]); intros; rewrite node_row by assumption; first [now apply grid_nth|now apply row_nth].
  Qed.
  Lemma kb_stars : stars_agree c b 1 0 S. Proof. intros [X|X]; discriminate X. Qed.
  Lemma kb_poisson : poisson_agrees c b S. Proof. unfold poisson_agrees. rewrite (pn_poisson _ _ H). right. repeat split; discriminate. Qed.
  Lemma kb_effective : effective_agrees c b S. Proof. intros X. rewrite (pn_mode _ _ H) in X. discriminate X. Qed.
  Lemma kb_alignment : alignment_agrees c b 1 0 S.
  Proof.
    destruct H. split; [apply holds_row; auto|]. split; [|split; (exists "constant"%string; split; [reflexivity|cbn; left; tauto])].
    exists (s_nm S), (s_nk S), (s_mass S), (s_kvec S), (fun _ m i => s_wkm S 0%nat i m). split; [exact pn_nm0|]. split; [exact pn_nk0|]. split.
    - intros j J. unfold sat_name, kb. cbn [on String.eqb Ascii.eqb Bool.eqb]. rewrite !prefix_app. repeat split; first [apply holds_row; auto|apply holds_grid; auto].
    - intros j i m J I M. rewrite (up_node (s_nm S) (s_mass S) (s_nk S) (s_kvec S)) by (try assumption; now apply (pn_w0 0%nat i m); try lia). symmetry. now apply pn_w0.
  Qed.
  (** ** The run *)
  Lemma power_ok f s zq kq : b s "k_h"%string = Some (BArr (row (s_nk S) (s_kvec S))) -> b s "z"%string = Some (BArr (row (s_nz S) (s_zvec S))) -> b s "p_k"%string = Some (BTab (grid2 (s_nz S) (s_nk S) f)) ->
    strict_nodes (row (s_nz S) (s_zvec S)) zq = Ok tt -> exists v, lk_power b s zq kq = Ok v.
  Proof.
    intros K Z T N. unfold lk_power, array. rewrite K, Z. cbn [bind]. rewrite !row_len, (sized_table_ok _ _ _ _ _ _ T). cbn [bind]. rewrite N. cbn [bind].
    destruct H. apply Nat.leb_le in pn_nk0. rewrite pn_nk0. cbn [bind]. eexists; reflexivity.
  Qed.
  Lemma kb_reads : exists x nl, lk_read dw (kb_arrays S) c b = Ok (row (s_nz S) (s_zvec S), row (s_nk S) (s_kvec S), row (s_nm S) (s_mass S), x, nl).
  Proof.
    destruct H. unfold lk_read.
    change (array b "hmf" "m_h") with (Ok (row (s_nm S) (s_mass S))). cbn [bind]. change (array b "hmf" "z") with (Ok (row (s_nz S) (s_zvec S))). cbn [bind]. rewrite !row_len.
    rewrite (sized_table_ok b "hmf" "dndlnmh" (s_nz S) (s_nm S) (s_dndlnm S) eq_refl). cbn [bind].
    change (array b "halobias" "m_h") with (Ok (row (s_nm S) (s_mass S))). cbn [bind]. change (array b "halobias" "z") with (Ok (row (s_nz S) (s_zvec S))). cbn [bind].
    rewrite (sized_table_ok b "halobias" "b_hb" (s_nz S) (s_nm S) (s_bias S) eq_refl). cbn [bind].
    change (array b "fourier_nfw_profile" "z") with (Ok (row (s_nz S) (s_zvec S))). cbn [bind]. change (array b "fourier_nfw_profile" "m_h") with (Ok (row (s_nm S) (s_mass S))). cbn [bind].
    change (array b "fourier_nfw_profile" "k_h") with (Ok (row (s_nk S) (s_kvec S))). cbn [bind]. rewrite same_refl. cbn [bind].
    pose proof (strict_own _ _ pn_nz0 pn_z0) as SN.
    destruct (power_ok pl "matter_power_lin" (row (s_nz S) (s_zvec S)) (ChainModel.at_ (row (s_nk S) (s_kvec S))) eq_refl eq_refl eq_refl SN) as (v & ->). cbn [bind].
    change (array b "growth_parameters" "z") with (Ok (row (s_nz S) (s_zvec S))). cbn [bind]. rewrite !row_len. rewrite (sized_ok b "growth_parameters" "d_z" (s_nz S) (s_growth S) eq_refl). cbn [bind]. rewrite SN. cbn [bind].
    change (kc_response c) with false. change (meads c || kc_dewiggle c)%bool with false. change (kc_bnl c) with false. cbn iota. cbn [bind].
    change (block_num b "density" "mean_density0") with (Ok (s_rho S 0%nat)). cbn [bind]. change (block_num b cosmology "fnu") with (Ok 0). cbn [bind]. change (block_num b cosmology "omega_c") with (Ok (s_oc S)). cbn [bind].
    change (block_num b cosmology "omega_m") with (Ok (s_om S)). cbn [bind]. change (block_num b cosmology "omega_b") with (Ok (s_ob S)). cbn [bind].
    change (matters c && negb false && meads c)%bool with false. cbn iota. cbn [bind]. do 2 eexists. reflexivity.
  Qed.
  Lemma hods_ok : exists t, lk_hods c b "" (row (s_nz S) (s_zvec S)) (row (s_nm S) (s_mass S)) = Ok t.
  Proof.
    destruct H. unfold lk_hods. cbv zeta. change (kc_hod c) with "hod"%string. cbn [String.append].
    change (array b "hod" "mass") with (Ok (row (s_nm S) (s_mass S))). cbn [bind]. change (array b "hod" "z") with (Ok (row (s_nz S) (s_zvec S))). cbn [bind]. rewrite !row_len.
    rewrite (sized_table_ok b "hod" "n_cen" (s_nz S) (s_nm S) (sN_c S 0%nat) eq_refl). cbn [bind]. rewrite (sized_table_ok b "hod" "n_sat" (s_nz S) (s_nm S) (sN_s S 0%nat) eq_refl). cbn [bind].
    rewrite (sized_ok b "hod" "number_density_cen" (s_nz S) (sn_c S 0%nat) eq_refl). cbn [bind]. rewrite (sized_ok b "hod" "number_density_sat" (s_nz S) (sn_s S 0%nat) eq_refl). cbn [bind].
    rewrite (sized_ok b "hod" "central_fraction" (s_nz S) (sF_c S 0%nat) eq_refl). cbn [bind]. rewrite (sized_ok b "hod" "satellite_fraction" (s_nz S) (sF_s S 0%nat) eq_refl). cbn [bind].
    rewrite (sized_ok b "hod" "average_halo_mass" (s_nz S) (fun _ => 1) eq_refl). cbn [bind]. rewrite same_refl. cbn [bind]. change (table_at b "hod" "f_star") with (@Err (list (list R)) "BlockNameNotFound"). cbn iota. cbn [bind].
    apply Nat.leb_le in pn_nz0. rewrite pn_nz0. cbn [bind]. eexists; reflexivity.
  Qed.
  Lemma ia_ok : exists a, lk_ia c b (row (s_nz S) (s_zvec S)) (row (s_nk S) (s_kvec S)) (row (s_nm S) (s_mass S)) = Ok a.
  Proof.
    unfold lk_ia. change (kc_align c) with true. cbn iota. rewrite row_len. rewrite (sized_ok b (large c) "alignment_gi" (s_nz S) (s_gi S) eq_refl). cbn [bind].
    destruct kb_alignment as (_ & (nm & nk & m & k & W & A & B & V & _) & _). rewrite (read_back b _ _ _ _ _ _ W _ _ A B V). cbn [bind].
    change (by_mass b (small c) "beta_sat") with (@Ok (option (R * R)) None). cbn [bind]. change (by_mass b (large c) "beta") with (@Ok (option (R * R)) None). cbn [bind]. eexists; reflexivity.
  Qed.
  Lemma puts_over l : forall d, (forall p, In p l -> exists s nx x ny y n t, p = Grid s nx x ny y n t) -> exists d', do_puts true l d = (d', Ok tt).
  Proof.
    induction l as [|p l IH]; intros d G; [now eexists|]. cbn [do_puts]. destruct (G p (or_introl eq_refl)) as (s & nx & x & ny & y & n & t & ->).
    unfold then_ at 1. cbn [do_put]. destruct (d s n); cbn [fst snd]; apply IH; intros q Q; apply G; now right.
  Qed.
  Ltac grids := intros p I; cbn in I; repeat (destruct I as [<-|I]; [repeat eexists|]); contradiction.
  Lemma carry_over l d : (forall p, In p l -> exists s nx x ny y n t, p = Grid s nx x ny y n t) -> exists d', carry_out true (l, Ok tt) d = (d', Ok tt).
  Proof. intros G. unfold carry_out. cbn [fst snd]. destruct (puts_over l d G) as (d' & ->). now exists d'. Qed.
  Lemma kb_runs : exists b', lk_execute true dw (kb_arrays S) c b = (b', Ok tt).
  Proof.
    unfold lk_execute. destruct kb_reads as (x & nl & ->). change (lk_profile c b x) with (Ok (Some (W_m x (x_fnu x)))). cbn iota.
    destruct (puts_over (mm_puts c (row (s_nz S) (s_zvec S)) (row (s_nk S) (s_kvec S)) x (Some (W_m x (x_fnu x)))) b) as (b1 & D1); [grids|].
    rewrite D1. unfold then_ at 1. cbn [fst snd]. change (kc_galaxy c) with true. cbn iota.
    assert (F : forall s m, s <> "matter_power_nl"%string -> b1 s m = b s m).
    { intros s m N. eapply puts_apart; [exact D1|]. intros p I <-. cbn in I. repeat (destruct I as [<-|I]; [apply N; reflexivity|]). contradiction. }
    replace (int_at b1 (kc_hod c) "nbins") with (Ok 1%Z) by (unfold int_at; rewrite F by discriminate; reflexivity). cbn iota. change (Z.to_nat 1) with 1%nat. cbn [seq map in_turn].
    unfold lk_bin. replace (bin_read c 1 0 _ _ _ x _ b1) with (bin_read c 1 0 (row (s_nz S) (s_zvec S)) (row (s_nk S) (s_kvec S)) (row (s_nm S) (s_mass S)) x (Some (W_m x (x_fnu x))) b).
    2:{ symmetry. apply (bin_read_ext dw). intros s m R. apply F. intros ->. destruct R as [R|[R|[R|[R|[R|R]]]]]; discriminate R. }
    unfold bin_read. change (bin_suffix 1 0) with ""%string. destruct hods_ok as ([[[[[[[Nc Ns] nc] ns] fc] fs] avg] star] & ->). cbn [bind]. change (kc_mead c) with (@None mead). change (kc_pm c) with false. cbn iota. cbn [bind].
    destruct ia_ok as (a & ->). cbn [bind]. change (kc_gg c) with true. cbn iota. change (lk_poisson (kc_poisson c) b (row (s_nm S) (s_mass S))) with (@Ok (nat -> R) (fun _ => 1)). cbn [bind]. cbn iota.
    set (h := {| bi_Nc := Nc |}). clearbody h.
    destruct (carry_over (fst (bin_first c (kc_pop c ++ "") (row (s_nz S) (s_zvec S)) (row (s_nk S) (s_kvec S)) x (Some (W_m x (x_fnu x))) nl h)) b1) as (b2 & D2); [grids|].
    change (bin_first c (kc_pop c ++ "") (row (s_nz S) (s_zvec S)) (row (s_nk S) (s_kvec S)) x (Some (W_m x (x_fnu x))) nl h) with
      (fst (bin_first c (kc_pop c ++ "") (row (s_nz S) (s_zvec S)) (row (s_nk S) (s_kvec S)) x (Some (W_m x (x_fnu x))) nl h), Ok tt).
    rewrite D2. unfold then_. cbn [fst snd]. change (lk_effective c b2 (row (s_nz S) (s_zvec S)) x) with (@Ok (nat -> nat -> R) (fun _ _ => 0)). cbn iota.
    destruct (carry_over (fst (bin_second c (kc_pop c ++ "") (row (s_nz S) (s_zvec S)) (row (s_nk S) (s_kvec S)) x (Some (W_m x (x_fnu x))) nl h (fun _ _ => 0))) b2) as (b3 & D3); [grids|].
    change (bin_second c (kc_pop c ++ "") (row (s_nz S) (s_zvec S)) (row (s_nk S) (s_kvec S)) x (Some (W_m x (x_fnu x))) nl h (fun _ _ => 0)) with
      (fst (bin_second c (kc_pop c ++ "") (row (s_nz S) (s_zvec S)) (row (s_nk S) (s_kvec S)) x (Some (W_m x (x_fnu x))) nl h (fun _ _ => 0)), Ok tt).
    rewrite D3. cbn [fst snd in_turn]. now exists b3.
  Qed.
End Canonical.
