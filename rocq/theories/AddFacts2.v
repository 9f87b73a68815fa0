(** Values of UpsampledSpectra: mixing and re-gridding; a concrete instance. *)
From Coq Require Import FunctionalExtensionality.
From Verif Require Import Base Spec Quad QuadFacts Interp InterpFacts BaseFacts HodModel PkModel AddModel AddSpec AddFacts.
Open Scope R_scope.

Section AddFacts2.
  Context {A : api}.
  Implicit Types (p : uparams A) (heap : nat -> obj A).

  Definition reading (o : obj A) mode comp : res A3 := bind (o_spec A o mode) (component comp).

  Lemma bidx_id n i : (i < n)%nat -> bidx n i = i.
  Proof. intros H. unfold bidx. destruct (Nat.eqb_spec n 1); lia. Qed.
  Lemma bcast_id n : bcast n n = Ok n.
  Proof. unfold bcast. rewrite Nat.eqb_refl. reflexivity. Qed.

  Lemma first_deref p heap r1 : first_is p heap r1 ->
    exists x, power_1_value p = Ok x /\ deref heap x = heap r1.
  Proof.
    unfold first_is, power_1_value. destruct (u_model p) as [r|].
    - intros E. exists (Shared r). split; [reflexivity|exact E].
    - intros E. rewrite E. exists (Own (heap r1)). split; reflexivity.
  Qed.

  Lemma fraction_value p i f : fraction_is p i f ->
    exists g, frac_1_value p = Ok (u_nz p, g) /\ g i = f.
  Proof.
    unfold fraction_is, frac_1_value. destruct (u_f p) as [[n y]|].
    - intros (x & Ex & E). rewrite Ex, Nat.eqb_refl. eexists; split; [reflexivity|exact E].
    - intros ->. eexists; split; reflexivity.
  Qed.

  Lemma single_value p heap r mode comp v : answer (single r p) heap mode comp = Ok v ->
    exists q, reading (heap r) mode comp = Ok q /\ r_rows v = u_nz p /\
      forall b i j, (i < u_nz p)%nat -> r_val v b i j = extrapolate p (heap r) q b i j.
  Proof.
    rewrite asked_pure. unfold pure, reading. change (power_1_value (single r p)) with (Ok (Shared (A:=A) r)). cbn [bind deref].
    destruct (bind (o_spec A (heap r) mode) (component comp)) as [q|e]; [|intros HH; discriminate HH]. cbn [bind].
    change (power_2_value (single r p) (heap r)) with (Ok (@None (obj A))). cbn [bind].
    destruct (String.eqb mode "mm").
    - intros H; inversion H; subst. exists q. split; [reflexivity|]. split; [reflexivity|]. intros; reflexivity.
    - unfold add_spectra. simpl. rewrite bcast_id. cbn [bind]. intros H; inversion H; subst.
      exists q. split; [reflexivity|]. split; [reflexivity|]. intros b i j Hi. simpl.
      rewrite bidx_id by exact Hi. unfold mix, extrapolate; simpl.
      destruct (String.eqb mode "gm" || String.eqb mode "mi")%bool; ring.
  Qed.

  Lemma single_mm p heap r comp v : answer (single r p) heap "mm" comp = Ok v ->
    exists q, reading (heap r) "mm" comp = Ok q /\ v = {| r_rows := u_nz p; r_val := extrapolate p (heap r) q |}.
  Proof.
    rewrite asked_pure. unfold pure, reading. change (power_1_value (single r p)) with (Ok (Shared (A:=A) r)). cbn [bind deref].
    destruct (bind (o_spec A (heap r) "mm") (component comp)) as [q|e]; [|intros HH; discriminate HH]. cbn [bind].
    simpl. intros H; inversion H; subst. exists q. split; reflexivity.
  Qed.

  Theorem mixture p heap r1 r2 mode comp v1 v2 i f :
    first_is p heap r1 -> second_is p heap r1 r2 -> fraction_is p i f -> (i < u_nz p)%nat ->
    answer (single r1 p) heap mode comp = Ok v1 -> answer (single r2 p) heap mode comp = Ok v2 ->
    exists v, answer p heap mode comp = Ok v /\ r_rows v = u_nz p /\
      (mode = "mm"%string -> v = v1) /\
      (mode = "gm"%string \/ mode = "mi"%string -> forall b j,
         r_val v b i j = f * r_val v1 b i j + (1 - f) * r_val v2 b i j) /\
      (mode <> "mm"%string -> mode <> "gm"%string -> mode <> "mi"%string -> forall b j,
         r_val v b i j = f ^ 2 * r_val v1 b i j + (1 - f) ^ 2 * r_val v2 b i j).
  Proof.
    intros H1 (q & Hq & H2) Hf Hi A1 A2.
    destruct (first_deref p heap r1 H1) as (x & Ex & Ed).
    destruct (fraction_value p i f Hf) as (g & Eg & Egi).
    destruct (single_value _ _ _ _ _ _ A1) as (q1 & Q1 & N1 & V1).
    destruct (single_value _ _ _ _ _ _ A2) as (q2 & Q2 & N2 & V2).
    unfold reading in Q1, Q2.
    rewrite asked_pure. unfold pure. rewrite Ex. cbn [bind]. rewrite Ed, Q1. cbn [bind].
    unfold power_2_value. rewrite Hq, H2. cbn [bind]. rewrite Q2. cbn [bind].
    destruct (String.eqb_spec mode "mm") as [->|Hm].
    - destruct (single_mm _ _ _ _ _ A1) as (q1' & Q1' & ->). unfold reading in Q1'. rewrite Q1 in Q1'. inversion Q1'; subst q1'.
      eexists. split; [reflexivity|]. split; [reflexivity|]. split; [reflexivity|]. split.
      + intros [E|E]; discriminate.
      + congruence.
    - rewrite Eg. cbn [bind]. unfold add_spectra. cbn [fst snd]. rewrite bcast_id. cbn [bind].
      eexists. split; [reflexivity|]. split; [reflexivity|]. split; [congruence|]. cbn [r_val].
      split.
      + intros Hgm b j. rewrite bidx_id by exact Hi. rewrite Egi, V1, V2 by exact Hi. unfold mix.
        destruct Hgm as [->| ->]; reflexivity.
      + intros _ Hg Hmi b j. rewrite bidx_id by exact Hi. rewrite Egi, V1, V2 by exact Hi. unfold mix.
        destruct (String.eqb_spec mode "gm"); [congruence|]. destruct (String.eqb_spec mode "mi"); [congruence|].
        reflexivity.
  Qed.

  Theorem one_population p heap r1 mode comp v1 i f :
    first_is p heap r1 -> u_m2 p = None -> fraction_is p i f -> (i < u_nz p)%nat ->
    answer (single r1 p) heap mode comp = Ok v1 ->
    exists v, answer p heap mode comp = Ok v /\ r_rows v = u_nz p /\
      (mode = "mm"%string -> v = v1) /\
      (mode = "gm"%string \/ mode = "mi"%string -> forall b j, r_val v b i j = f * r_val v1 b i j) /\
      (mode <> "mm"%string -> mode <> "gm"%string -> mode <> "mi"%string -> forall b j,
         r_val v b i j = f ^ 2 * r_val v1 b i j).
  Proof.
    intros H1 Hq Hf Hi A1.
    destruct (first_deref p heap r1 H1) as (x & Ex & Ed).
    destruct (fraction_value p i f Hf) as (g & Eg & Egi).
    destruct (single_value _ _ _ _ _ _ A1) as (q1 & Q1 & N1 & V1).
    unfold reading in Q1.
    rewrite asked_pure. unfold pure. rewrite Ex. cbn [bind]. rewrite Ed, Q1. cbn [bind].
    unfold power_2_value. rewrite Hq. cbn [bind].
    destruct (String.eqb_spec mode "mm") as [->|Hm].
    - destruct (single_mm _ _ _ _ _ A1) as (q1' & Q1' & ->). unfold reading in Q1'. rewrite Q1 in Q1'. inversion Q1'; subst q1'.
      eexists. split; [reflexivity|]. split; [reflexivity|]. split; [reflexivity|]. split.
      + intros [E|E]; discriminate.
      + congruence.
    - rewrite Eg. cbn [bind]. unfold add_spectra. cbn [fst snd]. rewrite bcast_id. cbn [bind].
      eexists. split; [reflexivity|]. split; [reflexivity|]. split; [congruence|]. cbn [r_val].
      split.
      + intros Hgm b j. rewrite bidx_id by exact Hi. rewrite Egi, V1 by exact Hi. unfold mix.
        destruct Hgm as [->| ->]; simpl; ring.
      + intros _ Hg Hmi b j. rewrite bidx_id by exact Hi. rewrite Egi, V1 by exact Hi. unfold mix.
        destruct (String.eqb_spec mode "gm"); [congruence|]. destruct (String.eqb_spec mode "mi"); [congruence|].
        simpl; ring.
  Qed.

  Lemma convex f a b : 0 <= f <= 1 -> Rmin a b <= f * a + (1 - f) * b <= Rmax a b.
  Proof.
    intros H. unfold Rmin, Rmax. destruct (Rle_dec a b); split; nra.
  Qed.

  (** ** Re-gridding *)
  Lemma log10_lt x y : 0 < x -> x < y -> log10 x < log10 y.
  Proof.
    intros Hx Hxy. unfold log10, Rdiv. apply Rmult_lt_compat_r.
    - apply Rinv_0_lt_compat. rewrite <- ln_1. apply ln_increasing; unfold ten; lra.
    - apply ln_increasing; assumption.
  Qed.

  Lemma good_logk o : good_grid o -> incr (o_nk A o) (fun k => log10 (o_k A o k)).
  Proof.
    intros (_ & _ & _ & Hi & H0) i Hi1. apply log10_lt.
    - apply Rlt_le_trans with (o_k A o 0%nat); [exact H0|]. apply (incr_le (o_nk A o)); [exact Hi|lia|lia].
    - apply Hi. exact Hi1.
  Qed.

  Lemma interp1d_node fl n x y i : (2 <= n)%nat -> incr n x -> (i < n)%nat -> interp1d fl n x y (x i) = y i.
  Proof.
    intros Hn Hi Hlt. rewrite interp1d_inside.
    - apply interp_node; assumption.
    - apply (incr_le n); [exact Hi|lia|lia].
    - apply (incr_le n); [exact Hi|lia|lia].
  Qed.

  Theorem own_grid p heap r mode comp v b i j i' j' : good_grid (heap r) -> (i < u_nz p)%nat ->
    (i' < o_nz A (heap r))%nat -> (j' < o_nk A (heap r))%nat ->
    u_z p i = o_z A (heap r) i' -> u_k p j = o_k A (heap r) j' ->
    answer (single r p) heap mode comp = Ok v ->
    exists q, bind (o_spec A (heap r) mode) (component comp) = Ok q /\ r_val v b i j = q b i' j'.
  Proof.
    intros G Hi Hi' Hj' Ez Ek Hv. destruct (single_value _ _ _ _ _ _ Hv) as (q & Q & _ & V).
    exists q. split; [exact Q|]. rewrite V by exact Hi. unfold extrapolate. rewrite Ez, Ek.
    pose proof (good_logk _ G) as Gk. destruct G as (G1 & G2 & G3 & _).
    rewrite (interp1d_node Extrapolate _ (fun k => log10 (o_k A (heap r) k)) _ j' G3 Gk Hj').
    exact (interp1d_node _ _ _ (fun z => q b z j') i' G1 G2 Hi').
  Qed.

  Theorem regrid_exact p heap r mode comp v b i j q c0 cz ck czk : good_grid (heap r) -> (i < u_nz p)%nat ->
    u_fill p = Extrapolate \/ o_z A (heap r) 0%nat <= u_z p i <= o_z A (heap r) (o_nz A (heap r) - 1)%nat ->
    answer (single r p) heap mode comp = Ok v ->
    bind (o_spec A (heap r) mode) (component comp) = Ok q ->
    (forall z k, (z < o_nz A (heap r))%nat -> (k < o_nk A (heap r))%nat ->
       q b z k = c0 + cz * o_z A (heap r) z + ck * log10 (o_k A (heap r) k)
                 + czk * o_z A (heap r) z * log10 (o_k A (heap r) k)) ->
    r_val v b i j = c0 + cz * u_z p i + ck * log10 (u_k p j) + czk * u_z p i * log10 (u_k p j).
  Proof.
    intros G Hi Hz Hv Q Hq. destruct (single_value _ _ _ _ _ _ Hv) as (q' & Q' & _ & V).
    unfold reading in Q'. rewrite Q in Q'. inversion Q'; subst q'. rewrite V by exact Hi. unfold extrapolate.
    pose proof (good_logk _ G) as Gk. destruct G as (G1 & G2 & G3 & _).
    simpl interp1d at 1.
    rewrite (interp_ext _ _ _ (fun k => (c0 + cz * u_z p i) + (ck + czk * u_z p i) * log10 (o_k A (heap r) k)) _ G3).
    - rewrite (interp_affine (o_nk A (heap r)) (fun k => log10 (o_k A (heap r) k)) _ _ _ G3 Gk). ring.
    - intros k Hk.
      assert (E : interp1d (u_fill p) (o_nz A (heap r)) (o_z A (heap r)) (fun z => q b z k) (u_z p i)
                  = interp_lin (o_nz A (heap r)) (o_z A (heap r)) (fun z => q b z k) (u_z p i)).
      { destruct Hz as [Hz|Hz]; [rewrite Hz; reflexivity|]. apply interp1d_inside; apply Hz. }
      rewrite E. rewrite (interp_ext _ _ _ (fun z => (c0 + ck * log10 (o_k A (heap r) k))
        + (cz + czk * log10 (o_k A (heap r) k)) * o_z A (heap r) z) _ G1).
      + rewrite (interp_affine _ _ _ _ _ G1 G2). ring.
      + intros z Hzz. rewrite Hq by assumption. ring.
  Qed.

  Lemma regrid_sum p o x y t : sums_up (o_nz A o) (o_nk A o) x y t -> good_grid o ->
    forall b i j,
    u_fill p = Extrapolate \/ u_fill p = FillValue 0 \/ u_fill p = FillPair 0 0 \/
      o_z A o 0%nat <= u_z p i <= o_z A o (o_nz A o - 1)%nat ->
    extrapolate p o t b i j = extrapolate p o x b i j + extrapolate p o y b i j.
  Proof.
    intros H (G1 & G2 & G3 & G4 & G5) b i j F. unfold extrapolate. simpl interp1d at 1 3 5.
    rewrite <- interp_plus. apply interp_ext; [exact G3|]. intros k Hk.
    rewrite (interp1d_ext _ _ _ (fun z => t b z k) (fun z => x b z k + y b z k) _ G1)
      by (intros z Hz; apply H; assumption).
    destruct F as [F|[F|[F|F]]].
    - apply interp1d_plus. left. auto.
    - apply interp1d_plus. right; left. auto.
    - apply interp1d_plus. right; right. auto.
    - rewrite !interp1d_inside by apply F. apply interp_plus.
  Qed.

  Theorem sums_kept p heap r mode v1 v2 vt P : good_grid (heap r) ->
    o_spec A (heap r) mode = Ok P -> sums_up (o_nz A (heap r)) (o_nk A (heap r)) (pk_1h P) (pk_2h P) (pk_tot P) ->
    answer (single r p) heap mode "1h" = Ok v1 -> answer (single r p) heap mode "2h" = Ok v2 ->
    answer (single r p) heap mode "tot" = Ok vt ->
    forall b i j, (i < u_nz p)%nat ->
    u_fill p = Extrapolate \/ u_fill p = FillValue 0 \/ u_fill p = FillPair 0 0 \/
      o_z A (heap r) 0%nat <= u_z p i <= o_z A (heap r) (o_nz A (heap r) - 1)%nat ->
    r_val vt b i j = r_val v1 b i j + r_val v2 b i j.
  Proof.
    intros G HP H A1 A2 A3 b i j Hi F.
    destruct (single_value _ _ _ _ _ _ A1) as (q1 & Q1 & _ & V1).
    destruct (single_value _ _ _ _ _ _ A2) as (q2 & Q2 & _ & V2).
    destruct (single_value _ _ _ _ _ _ A3) as (q3 & Q3 & _ & V3).
    unfold reading, component in Q1, Q2, Q3. rewrite HP in Q1, Q2, Q3. simpl in Q1, Q2, Q3.
    inversion Q1; inversion Q2; inversion Q3; subst. rewrite V1, V2, V3 by exact Hi.
    apply regrid_sum; assumption.
  Qed.

  (** The same for a two-population object. *)
  Theorem sums_kept_mix p heap r1 r2 mode P1 P2 v1 v2 vt i f :
    first_is p heap r1 -> second_is p heap r1 r2 -> fraction_is p i f -> (i < u_nz p)%nat ->
    good_grid (heap r1) -> good_grid (heap r2) ->
    o_spec A (heap r1) mode = Ok P1 -> o_spec A (heap r2) mode = Ok P2 ->
    sums_up (o_nz A (heap r1)) (o_nk A (heap r1)) (pk_1h P1) (pk_2h P1) (pk_tot P1) ->
    sums_up (o_nz A (heap r2)) (o_nk A (heap r2)) (pk_1h P2) (pk_2h P2) (pk_tot P2) ->
    u_fill p = Extrapolate \/ u_fill p = FillValue 0 \/ u_fill p = FillPair 0 0 ->
    answer p heap mode "1h" = Ok v1 -> answer p heap mode "2h" = Ok v2 -> answer p heap mode "tot" = Ok vt ->
    forall b j, r_val vt b i j = r_val v1 b i j + r_val v2 b i j.
  Proof.
    intros H1 H2 Hf Hi G1 G2 E1 E2 S1 S2 F A1 A2 A3 b j.
    assert (C : forall r comp, In comp ["1h"; "2h"; "tot"]%string -> r = r1 \/ r = r2 ->
      exists w, answer (single r p) heap mode comp = Ok w).
    { intros r comp Hc Hr. rewrite asked_pure. unfold pure. change (power_1_value (single r p)) with (Ok (Shared (A:=A) r)). cbn [bind deref].
      assert (exists P, o_spec A (heap r) mode = Ok P) as (P & EP) by (destruct Hr; subst; eauto).
      rewrite EP. cbn [bind].
      assert (exists q, component comp P = Ok q) as (q & Eq).
      { simpl in Hc. destruct Hc as [<-|[<-|[<-|[]]]]; eexists; reflexivity. }
      rewrite Eq. cbn [bind]. change (power_2_value (single r p) (heap r)) with (Ok (@None (obj A))). cbn [bind].
      destruct (String.eqb mode "mm"); [eexists; reflexivity|]. simpl. unfold add_spectra. simpl.
      rewrite bcast_id. eexists; reflexivity. }
    assert (K : forall r P, r = r1 \/ r = r2 -> good_grid (heap r) -> o_spec A (heap r) mode = Ok P ->
       sums_up (o_nz A (heap r)) (o_nk A (heap r)) (pk_1h P) (pk_2h P) (pk_tot P) ->
       forall x y t, answer (single r p) heap mode "1h" = Ok x -> answer (single r p) heap mode "2h" = Ok y ->
       answer (single r p) heap mode "tot" = Ok t -> r_val t b i j = r_val x b i j + r_val y b i j).
    { intros r P Hr G EP SP x y t X Y T. apply (sums_kept p heap r mode x y t P); auto.
      destruct F as [F|[F|F]]; auto. }
    destruct (C r1 "1h"%string) as (x1 & X1); [simpl; auto|auto|]. destruct (C r1 "2h"%string) as (y1 & Y1); [simpl; auto|auto|].
    destruct (C r1 "tot"%string) as (t1 & T1); [simpl; auto|auto|].
    destruct (C r2 "1h"%string) as (x2 & X2); [simpl; auto|auto|]. destruct (C r2 "2h"%string) as (y2 & Y2); [simpl; auto|auto|].
    destruct (C r2 "tot"%string) as (t2 & T2); [simpl; auto|auto|].
    pose proof (K r1 P1 (or_introl eq_refl) G1 E1 S1 _ _ _ X1 Y1 T1) as K1.
    pose proof (K r2 P2 (or_intror eq_refl) G2 E2 S2 _ _ _ X2 Y2 T2) as K2.
    destruct (mixture p heap r1 r2 mode _ _ _ i f H1 H2 Hf Hi X1 X2) as (a1 & B1 & _ & M1 & N1 & O1).
    destruct (mixture p heap r1 r2 mode _ _ _ i f H1 H2 Hf Hi Y1 Y2) as (a2 & B2 & _ & M2 & N2 & O2).
    destruct (mixture p heap r1 r2 mode _ _ _ i f H1 H2 Hf Hi T1 T2) as (a3 & B3 & _ & M3 & N3 & O3).
    rewrite A1 in B1. rewrite A2 in B2. rewrite A3 in B3. inversion B1; inversion B2; inversion B3; subst a1 a2 a3.
    destruct (string_dec mode "mm") as [Em|Em].
    - rewrite (M1 Em), (M2 Em), (M3 Em). exact K1.
    - destruct (string_dec mode "gm") as [Eg|Eg]; [|destruct (string_dec mode "mi") as [Ei|Ei]].
      + rewrite (N1 (or_introl Eg)), (N2 (or_introl Eg)), (N3 (or_introl Eg)), K1, K2. ring.
      + rewrite (N1 (or_intror Ei)), (N2 (or_intror Ei)), (N3 (or_intror Ei)), K1, K2. ring.
      + rewrite (O1 Em Eg Ei), (O2 Em Eg Ei), (O3 Em Eg Ei), K1, K2. ring.
  Qed.
End AddFacts2.

(** ** A concrete instance: spectra of amplitude [a] on a 2 x 2 grid *)
Definition toy_modes : list string := ["mm"; "gg"; "gm"; "mi"; "ii"; "gi"]%string.
Definition toy : api :=
  {| obj := R; prm := R; construct := fun a => Ok a; update_obj := fun _ a => Ok a;
     o_nz := fun _ => 2%nat; o_z := fun _ => INR; o_nk := fun _ => 2%nat; o_k := fun _ k => INR k + 1;
     o_spec := fun a mode =>
       if in_dec string_dec mode toy_modes
       then Ok {| pk_1h := fun _ z k => a * (1 + INR z); pk_2h := fun _ z k => a * INR k;
                  pk_tot := fun _ z k => a * (1 + INR z) + a * INR k; pk_bias := None |}
       else Err "AttributeError" |}.
Definition toy_params (f : option (nat * A1)) (m2 : option R) (fl : fill) : uparams toy :=
  {| u_nz := 2; u_z := INR; u_nk := 2; u_k := fun k => INR k + 1;
     u_fz := Some (2%nat, INR); u_f := f; u_model := Some 0%nat; u_m1 := (1 : prm toy); u_m2 := m2; u_fill := fl |}.
Definition toy_heap : nat -> obj toy := fun r => match r with O => 1 | _ => 3 end.

Lemma toy_good (a : obj toy) : good_grid a.
Proof.
  unfold good_grid, increasing; simpl. repeat split; try lia; try lra; intros i Hi;
    (assert (i = 0%nat) by lia; subst; simpl; lra).
Qed.

Definition toy_psr (a : R) : psr :=
  {| pk_1h := fun _ z k => a * (1 + INR z); pk_2h := fun _ z k => a * INR k;
     pk_tot := fun _ z k => a * (1 + INR z) + a * INR k; pk_bias := None |}.
Lemma toy_spec (a : obj toy) mode : In mode toy_modes -> o_spec toy a mode = Ok (toy_psr a).
Proof.
  intros H. change (o_spec toy a mode) with
    (if in_dec string_dec mode toy_modes then Ok (toy_psr a) else Err "AttributeError").
  destruct (in_dec string_dec mode toy_modes); [reflexivity|contradiction].
Qed.

Lemma toy_single r mode comp : In mode toy_modes -> In comp ["1h"; "2h"; "tot"]%string -> forall f m2 fl,
  exists v, answer (single r (toy_params f m2 fl)) toy_heap mode comp = Ok v.
Proof.
  intros Hm Hc f m2 fl. rewrite asked_pure. unfold pure.
  change (power_1_value (single r (toy_params f m2 fl))) with (Ok (Shared (A:=toy) r)). cbn [bind deref].
  rewrite (toy_spec _ _ Hm). cbn [bind].
  assert (exists q, component comp (toy_psr (toy_heap r)) = Ok q) as (q & Eq).
  { simpl in Hc. destruct Hc as [<-|[<-|[<-|[]]]]; eexists; reflexivity. }
  rewrite Eq. cbn [bind]. simpl power_2_value. cbn [bind].
  destruct (String.eqb mode "mm"); [eexists; reflexivity|]. eexists; reflexivity.
Qed.

Lemma toy_fraction f m2 fl i : (i < 2)%nat ->
  fraction_is (toy_params (Some (2%nat, f)) m2 fl) i (f i).
Proof.
  intros Hi. unfold fraction_is. simpl. exists INR. split; [reflexivity|].
  apply (interp_node 2 INR f i); [lia| |exact Hi]. intros k Hk. rewrite S_INR. lra.
Qed.
