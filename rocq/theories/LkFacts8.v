(** Massive neutrinos, and the effective power of Fortuna. *)
From Coq Require Import ZArith.
From Verif Require Import Base Spec Quad QuadFacts Interp InterpFacts IaModel NumFacts HodModel PkModel PkFacts2 PipeModel OptModel FftModel ChainModel MiniModel PredModel AupModel AupSpec LiaModel LiaSpec LhModel LhSpec LhFacts LhFacts5 LrModel LkModel LkSpec LkSpec2 LkFacts2 LkFacts3 LkFacts4 LkFacts5 LkFacts6.
Open Scope R_scope.

Definition with_fnu (x : lk) (f : R) : lk := {| x_nz := x_nz x; x_nk := x_nk x; x_nm := x_nm x; x_z := x_z x; x_k := x_k x; x_mass := x_mass x; x_dn := x_dn x; x_b := x_b x; x_udm := x_udm x; x_usat := x_usat x; x_plin := x_plin x;
  x_growth := x_growth x; x_rho := x_rho x; x_fnu := f; x_oc := x_oc x; x_om := x_om x; x_ob := x_ob x; x_sigma8 := x_sigma8 x; x_neff := x_neff x; x_beta := x_beta x |}.
Section Neutrinos.
  Variables (dw : dblock -> list R -> A2 -> res A2) (nd : arrays) (c : kconfig) (b0 b1 : dblock) (f : R).
  Hypotheses (NM : kc_mead c = None) (ND : kc_dewiggle c = false) (F0 : reads b0 cosmology "fnu" 0) (F1 : reads b1 cosmology "fnu" f)
    (E : forall s n, s <> cosmology \/ n <> "fnu"%string -> b1 s n = b0 s n).
  Lemma num_of b s n v : reads b s n v -> block_num b s n = Ok v.
  Proof. unfold block_num. intros [R|(k & R & ->)]; now rewrite R. Qed.
  Lemma read_fnu z k mass x nl : lk_read dw nd c b0 = Ok (z, k, mass, x, nl) -> x_fnu x = 0 /\ lk_read dw nd c b1 = Ok (z, k, mass, with_fnu x f, nl).
  Proof.
    unfold lk_read. assert (ME : (meads c || kc_dewiggle c)%bool = false) by (unfold meads; now rewrite NM, ND). rewrite ME. rewrite (num_of _ _ _ _ F0), (num_of _ _ _ _ F1).
    unfold lk_power, sized, sized_table, array, table_at, block_num.
    rewrite !(E "hmf"), !(E "halobias"), !(E "fourier_nfw_profile"), !(E "matter_power_lin"), !(E "growth_parameters"), !(E "density"), !(E "matter_power_nl") by (left; discriminate).
    rewrite !(E cosmology "omega_c"), !(E cosmology "omega_m"), !(E cosmology "omega_b") by (right; discriminate). intros H.
    repeat (match type of H with bind ?m _ = Ok _ => destruct m; cbn [bind] in H |- *; [|discriminate H] end).
    injection H as <- <- <- <- <-. split; reflexivity.
  Qed.
  Lemma neutrino_mm over b0' b1' : (kc_galaxy c = true -> hod_apart c) -> matters c = true -> lk_execute over dw nd c b0 = (b0', Ok tt) -> lk_execute over dw nd c b1 = (b1', Ok tt) ->
    exists nz nk p p2, holds_table (b0' (msec c) "p_k_1h"%string) nz nk p /\ holds_table (b1' (msec c) "p_k_1h"%string) nz nk (fun j i => (1 - f) ^ 2 * p j i) /\
      holds_table (b0' (msec c) "p_k_2h"%string) nz nk p2 /\ holds_table (b1' (msec c) "p_k_2h"%string) nz nk p2.
  Proof.
    intros HH M E0 E1. destruct (run_left _ _ _ _ _ _ HH E0) as (z & k & mass & x & nl & W & R0 & P0 & L0 & _). destruct (run_left _ _ _ _ _ _ HH E1) as (z' & k' & mass' & x' & nl' & W' & R1 & P1 & L1 & _).
    destruct (read_fnu _ _ _ _ _ R0) as [FX RF]. rewrite RF in R1. injection R1 as <- <- <- <- <-. destruct (L0 M) as (V0 & -> & (_ & _ & A1 & A2 & _)). destruct (L1 M) as (V1 & -> & (_ & _ & B1 & B2 & _)).
    assert (KM : kc_matter c = true) by (unfold matters in M; now destruct (kc_matter c)). unfold lk_profile in P0, P1. rewrite KM, NM in P0, P1. injection P0 as <-. injection P1 as <-.
    exists (x_nz x), (x_nk x), (l_1h (lk_mm x c (W_m x (x_fnu x)))), (l_2h (lk_mm x c (W_m x (x_fnu x)))). rewrite A1, A2, B1, B2. rewrite FX.
    split; [apply holds_grid; auto|]. split; [|split; [apply holds_grid; auto|]]; change (x_nz (with_fnu x f)) with (x_nz x); change (x_nk (with_fnu x f)) with (x_nk x); apply holds_grid; intros j i _ _; unfold lk_mm; rewrite NM.
    - assert (ONE : lk_1h (with_fnu x f) (W_m (with_fnu x f) f) (W_m (with_fnu x f) f) j i = (1 - f) ^ 2 * lk_1h x (W_m x 0) (W_m x 0) j i).
      { unfold lk_1h. transitivity (simpson (x_nm x) (fun m => (1 - f) ^ 2 * (W_m x 0 j i m * W_m x 0 j i m * x_dn x j m / x_mass x m) + 0 * 0) (x_mass x)); [apply simpson_pw; intros m; unfold W_m; cbn; unfold Rdiv; ring|]. rewrite simpson_lin. ring. }
      destruct (kc_bnl c); cbn [l_1h]; change (x_fnu (with_fnu x f)) with f; rewrite ONE; change (tr1 (with_fnu x f) c i) with (tr1 x c i); ring.
    - destruct (kc_bnl c); cbn [l_2h]; reflexivity.
  Qed.
End Neutrinos.

(** ** What is not read *)
Section Unread.
  Variables (dw : dblock -> list R -> A2 -> res A2) (nd : arrays) (c : kconfig).
  Hypotheses (NR : kc_response c = false) (MT : matters c = true) (NW : (meads c || kc_dewiggle c)%bool = false) (HH : hod_apart c).
  Definition outside (s n : string) : Prop := s <> "matter_power_nl"%string \/ In n ["z"; "k_h"; "p_k_1h"; "p_k_2h"; "p_k"]%string.
  Definition grids (l : list lput) : Prop := forall p, In p l -> exists s nx x ny y n t, p = Grid s nx x ny y n t.
  Lemma puts_same (Q : string -> string -> Prop) l : grids l -> forall a d, (forall s n, Q s n -> a s n = d s n) ->
    exists a' d', do_puts true l a = (a', Ok tt) /\ do_puts true l d = (d', Ok tt) /\ forall s n, Q s n -> a' s n = d' s n.
  Proof.
    induction l as [|p l IH]; intros G a d A; [now exists a, d|]. cbn [do_puts]. destruct (G p (or_introl eq_refl)) as (s & nx & x & ny & y & n & t & ->).
    assert (X : forall e : dblock, do_put true (Grid s nx x ny y n t) e = (put_axes_table e s nx x ny y n t, Ok tt)) by (intros e; cbn; now destruct (e s n)).
    rewrite !X. unfold then_. cbn [fst snd]. apply IH; [intros q I; apply G; now right|]. intros s' n' q. unfold put_axes_table, bput. repeat (destruct (String.eqb _ _ && String.eqb _ _)%bool; [reflexivity|]). now apply A.
  Qed.
  Lemma answer_grids on before s z k x W nl t : grids before -> grids (fst (answer_puts c on before s z k x W nl t)).
  Proof.
    intros G p I. unfold answer_puts in I. destruct on; [|contradiction]. destruct (answered c x W nl t); cbn [fst] in I; [|now apply G]. apply in_app_iff in I. destruct I as [I|I]; [now apply G|].
    cbn in I. repeat (destruct I as [<-|I]; [repeat eexists|]). contradiction.
  Qed.
  Lemma both_grids p q : grids (fst p) -> grids (fst q) -> grids (fst (and_then p q)).
  Proof. intros A B. unfold and_then. destruct (snd p); cbn [fst]; [|exact A]. intros e I. apply in_app_iff in I. destruct I; [now apply A|now apply B]. Qed.
  Lemma one_grid s n z k x t : grids [grid_put s n z k x t]. Proof. intros p [<-|[]]. repeat eexists. Qed.
  Lemma no_grid : grids []. Proof. intros p []. Qed.
  Lemma carry_same (Q : string -> string -> Prop) p a d : grids (fst p) -> (forall s n, Q s n -> a s n = d s n) ->
    exists a' d', carry_out true p a = (a', snd p) /\ carry_out true p d = (d', snd p) /\ forall s n, Q s n -> a' s n = d' s n.
  Proof. intros G A. unfold carry_out. destruct (puts_same Q _ G a d A) as (a' & d' & -> & -> & A'). exists a', d'. auto. Qed.
  Section Bins.
    Variables (z k mass : list R) (x : lk) (W : option A3) (nl : A2) (n : Z).
    Lemma bin_same nb a d : (forall s m, outside s m -> a s m = d s m) ->
      exists a' d' r, lk_bin true c n z k mass x W nl nb a = (a', r) /\ lk_bin true c n z k mass x W nl nb d = (d', r) /\ forall s m, outside s m -> a' s m = d' s m.
    Proof.
      intros A. unfold lk_bin. replace (bin_read c n nb z k mass x W a) with (bin_read c n nb z k mass x W d).
      2:{ symmetry. apply (bin_read_ext dw). intros s m R. apply A. left. intros ->. now apply (proj1 (read_matter c HH)). }
      destruct (bin_read c n nb z k mass x W d) as [h|e]; [|exists a, d, (Err e); auto].
      destruct (carry_same outside (bin_first c (kc_pop c ++ bin_suffix n nb) z k x W nl h) a d) as (a1 & d1 & -> & -> & A1); [apply both_grids; apply answer_grids, one_grid|exact A|].
      unfold then_. cbn [fst snd]. destruct (snd (bin_first c (kc_pop c ++ bin_suffix n nb) z k x W nl h)) as [u|e]; [|exists a1, d1, (Err e); auto].
      replace (lk_effective c a1 z x) with (lk_effective c d1 z x).
      2:{ unfold lk_effective, lk_power, sized_table, array, table_at, block_num. rewrite (A1 "matter_power_nl" "k_h")%string, (A1 "matter_power_nl" "z")%string, (A1 "matter_power_nl" "p_k")%string by (right; cbn; tauto).
          rewrite !(A1 "pk_parameters"%string) by (left; discriminate). reflexivity. }
      destruct (lk_effective c d1 z x) as [pe|e]; [|exists a1, d1, (Err e); auto].
      destruct (carry_same outside (bin_second c (kc_pop c ++ bin_suffix n nb) z k x W nl h pe) a1 d1) as (a2 & d2 & -> & -> & A2); [apply both_grids; [apply answer_grids, no_grid|apply both_grids; apply answer_grids, no_grid]|exact A1|].
      do 3 eexists. split; [reflexivity|]. split; [reflexivity|exact A2].
    Qed.
    Lemma bins_same l : forall a d, (forall s m, outside s m -> a s m = d s m) ->
      exists a' d' r, in_turn (map (lk_bin true c n z k mass x W nl) l) a = (a', r) /\ in_turn (map (lk_bin true c n z k mass x W nl) l) d = (d', r) /\ forall s m, outside s m -> a' s m = d' s m.
    Proof.
      induction l as [|nb l IH]; intros a d A; [exists a, d, (Ok tt); auto|]. cbn [map in_turn]. destruct (bin_same nb a d A) as (a1 & d1 & r & -> & -> & A1). unfold then_. cbn [fst snd].
      destruct r as [u|e]; [now apply IH|exists a1, d1, (Err e); auto].
    Qed.
  End Bins.
  Lemma nonlinear_unread b1 b2 : (forall s n, s <> "matter_power_nl"%string -> b1 s n = b2 s n) ->
    exists b1' b2' r, lk_execute true dw nd c b1 = (b1', r) /\ lk_execute true dw nd c b2 = (b2', r) /\
      ((b1' = b1 /\ b2' = b2 /\ r <> Ok tt) \/ forall s m, outside s m -> b1' s m = b2' s m).
  Proof.
    intros A. unfold lk_execute. assert (RE : lk_read dw nd c b1 = lk_read dw nd c b2).
    { unfold lk_read. rewrite NW, NR. unfold lk_power, sized, sized_table, array, table_at, block_num.
      rewrite !(A "hmf"%string), !(A "halobias"%string), !(A "fourier_nfw_profile"%string), !(A "matter_power_lin"%string), !(A "growth_parameters"%string), !(A "density"%string), !(A cosmology) by discriminate. reflexivity. }
    rewrite RE. destruct (lk_read dw nd c b2) as [[[[[z k] mass] x] nl]|e]; [|exists b1, b2, (Err e); split; [reflexivity|]; split; [reflexivity|]; left; repeat split; discriminate].
    assert (PE : lk_profile c b1 x = lk_profile c b2 x).
    { unfold lk_profile, lk_fstar_mm, has_value, block_num, array, table_at. destruct HH as (N & _). rewrite !(A "halo_model_parameters"%string) by discriminate. rewrite !(A (kc_hod c)) by exact N. reflexivity. }
    rewrite PE. destruct (lk_profile c b2 x) as [W|e] eqn:EP; [|exists b1, b2, (Err e); split; [reflexivity|]; split; [reflexivity|]; left; repeat split; discriminate].
    assert (WV : exists V, W = Some V).
    { unfold lk_profile in EP. assert (KM : kc_matter c = true) by (unfold matters in MT; now destruct (kc_matter c)). rewrite KM in EP. destruct (kc_mead c) as [[| |]|]; repeat (apply bind_inv in EP; destruct EP as (? & _ & EP)); injection EP as <-; eauto. }
    destruct WV as (V & ->). unfold mm_puts. rewrite MT, NR.
    destruct (puts_same (fun s _ => s <> "matter_power_nl"%string) (three_puts "matter_power_nl" z k x (lk_mm x c V))) with (a := b1) (d := b2) as (a & d & D1 & D2 & AD); [intros p I; cbn in I; repeat (destruct I as [<-|I]; [repeat eexists|]); contradiction|exact A|].
    rewrite D1, D2. unfold then_. cbn [fst snd]. apply (three_left true dw z k x (fun _ _ => 0) 0%nat) in D1, D2.
    assert (O : forall s m, outside s m -> a s m = d s m).
    { intros s m [N|I]; [now apply AD|]. destruct (string_dec s "matter_power_nl") as [->|N]; [|now apply AD]. destruct D1 as (X1 & X2 & X3 & X4 & X5). destruct D2 as (Y1 & Y2 & Y3 & Y4 & Y5). cbn in I. decompose [or] I; subst; try contradiction; congruence. }
    destruct (kc_galaxy c); [|exists a, d, (Ok tt); auto]. replace (int_at a (kc_hod c) "nbins") with (int_at d (kc_hod c) "nbins").
    2:{ unfold int_at. rewrite (O (kc_hod c)); [reflexivity|]. left. apply HH. }
    destruct (int_at d (kc_hod c) "nbins") as [n|e]; [|exists a, d, (Err e); auto].
    destruct (bins_same z k mass x (Some V) nl n (seq 0 (Z.to_nat n)) a d O) as (a' & d' & r & X & Y & Z'). exists a', d', r. auto.
  Qed.
End Unread.
