(** Lemmas about ia_amplitudes.py. *)
From Coq Require Import ZArith Lia Lra.
From Verif Require Import Base Interp FftModel PipeModel OptModel ChainModel PredModel MiniModel IaModel AupModel AupSpec LiaModel LiaSpec.
Open Scope R_scope.

(** ** Writing *)
Lemma bput_same b s n v : bput b s n v s n = Some v.
Proof. unfold bput. now rewrite !String.eqb_refl. Qed.
Lemma bput_other b s n v s' n' : ~ (s' = s /\ n' = n) -> bput b s n v s' n' = b s' n'.
Proof. unfold bput. intros H. destruct (String.eqb_spec s s'); [|reflexivity]. destruct (String.eqb_spec n n'); [|reflexivity]. exfalso. apply H. now subst. Qed.
Lemma put_frame s l : forall b b' r s' n, put_all s l b = (b', r) -> ~ (s' = s /\ In n (map fst l)) -> b' s' n = b s' n.
Proof.
  induction l as [|[m v] l IH]; intros b b' r s' n H N; cbn in H; [injection H as <- _; reflexivity|].
  unfold put_new in H. destruct (b s m) eqn:E; cbn in H; [injection H as <- _; reflexivity|].
  rewrite (IH _ _ _ s' n H); [|intros [A B]; apply N; split; [exact A|now right]].
  apply bput_other. intros [-> ->]. apply N. split; [reflexivity|now left].
Qed.
Lemma put_done s l : forall b b', put_all s l b = (b', Ok tt) -> forall n v, In (n, v) l -> b s n = None /\ b' s n = Some v.
Proof.
  induction l as [|[m w] l IH]; intros b b' H n v I; [destruct I|]. cbn in H. unfold put_new in H. destruct (b s m) eqn:E; cbn in H; [discriminate H|].
  destruct I as [I|I].
  - injection I as -> ->. split; [exact E|]. rewrite (put_frame s l _ _ _ s n H); [apply bput_same|].
    intros [_ J]. apply in_map_iff in J. destruct J as ([n' v'] & J1 & J2). cbn in J1. subst n'. destruct (IH _ _ H n v' J2) as [A _]. rewrite bput_same in A. discriminate A.
  - destruct (IH _ _ H n v I) as [A B]. split; [|exact B]. destruct (String.eqb_spec n m) as [->|N]; [rewrite bput_same in A; discriminate A|].
    rewrite bput_other in A; [exact A|]. intros [_ J]. now apply N.
Qed.
Lemma put_runs s l : forall b, NoDup (map fst l) -> (forall n, In n (map fst l) -> b s n = None) -> exists b', put_all s l b = (b', Ok tt).
Proof.
  induction l as [|[m w] l IH]; intros b D F; [exists b; reflexivity|]. cbn in D. inversion D as [|x y D1 D2]; subst. cbn. unfold put_new. rewrite F by now left. cbn. apply IH; [exact D2|].
  intros n Hn. rewrite bput_other; [apply F; now right|]. intros [_ ->]. now apply D1.
Qed.

(** ** Reading *)
Lemma reads_num b s n x : reads b s n x <-> block_num b s n = Ok x.
Proof.
  unfold reads, block_num. split.
  - intros [->|(k & -> & ->)]; reflexivity.
  - destruct (b s n) as [[k|y|t|l|l]|]; intros H; try discriminate H; injection H as <-; [right; now exists k|now left].
Qed.
Lemma reads_has b s n x : reads b s n x -> has_value b s n = true.
Proof. unfold has_value. intros [->|(k & -> & _)]; reflexivity. Qed.
Lemma may_has b s n v : may_read b s n v -> has_value b s n = match v with Some _ => true | None => false end.
Proof. destruct v; cbn; [apply reads_has|]. unfold has_value. now intros ->. Qed.
Lemma may_num b s n x : may_read b s n (Some x) -> block_num b s n = Ok x.
Proof. apply reads_num. Qed.
Lemma suffix_part n x : part_of_name n x -> suffix_of n = x.
Proof. unfold suffix_of. intros [[-> ->]|[N ->]]; [reflexivity|]. destruct (String.eqb_spec n ""); [contradiction|reflexivity]. Qed.
Lemma text_get missing wrong o n d v : text o n d v -> get_string missing wrong o n (Some d) = Ok v.
Proof. unfold get_string. intros [->|[-> ->]]; reflexivity. Qed.
Lemma text_only o n d v w : text o n d v -> text o n d w -> v = w.
Proof. intros [A|[A ->]] [B|[B ->]]; rewrite A in B; try discriminate B; [now injection B|reflexivity]. Qed.
Lemma gives_number o n x : gives o n x -> exists v, o n = Some v /\ as_number v = Ok x.
Proof. intros [E|(k & E & ->)]; eexists; (split; [exact E|reflexivity]). Qed.

(** ** setup *)
Definition valid (d : string) : Prop := In d ["constant"; "luminosity"; "halo_mass"]%string.
Lemma known_valid d : valid d <-> known (OStr d) = Ok d.
Proof.
  unfold valid, known. destruct (existsb _ _) eqn:E; split; intros H; try reflexivity; try discriminate H.
  - apply existsb_exists in E. destruct E as (x & I & J). apply String.eqb_eq in J. now subst.
  - exfalso. assert (X : existsb (String.eqb d) ["constant"; "luminosity"; "halo_mass"]%string = true) by (apply existsb_exists; exists d; split; [exact H|apply String.eqb_refl]).
    congruence.
Qed.
Lemma known_ok v d : known v = Ok d -> v = OStr d /\ valid d.
Proof. intros H. destruct v; try discriminate H. unfold known in H. destruct (existsb _ _) eqn:E; [|discriminate H]. injection H as <-. split; [reflexivity|]. apply known_valid. unfold known. now rewrite E. Qed.
Definition table_of (a : amplitudes) (d : string) (file : option (list (R * R))) : res (A2 * A2) :=
  if String.eqb d "luminosity" then luminosity_array (am_nz a) (am_z a) file else Ok (fun _ _ => 1, fun _ _ => 1).
Lemma table_described missing columns o d fo zmin zmax vmin vmax a file :
  (d = "luminosity"%string -> exists f gal, o fo = Some f /\ columns f = Ok gal /\ file = Some gal) ->
  as_number vmin = Ok zmin -> as_number vmax = Ok zmax -> am_z a = linspace zmin zmax (am_nz a) ->
  lia_table missing columns o d fo vmin vmax (Z.of_nat (am_nz a)) = table_of a d file.
Proof.
  intros F A B Z. unfold lia_table, table_of. destruct (String.eqb_spec d "luminosity") as [E|E].
  - destruct (F E) as (f & gal & F1 & F2 & ->). unfold option_at. rewrite F1. cbn. rewrite F2. cbn. rewrite A. cbn. rewrite B. cbn.
    destruct (Z.ltb_spec (Z.of_nat (am_nz a)) 0); [lia|]. cbn. rewrite Nat2Z.id, Z. reflexivity.
  - destruct (Z.ltb_spec (Z.of_nat (am_nz a)) 0); [lia|reflexivity].
Qed.
Lemma setup_described missing wrong columns o b sfx a c : described columns o b sfx a -> lia_setup missing wrong columns o = Ok c <->
  valid (am_central a) /\ valid (am_satellite a) /\ table_of a (am_central a) (am_file_cen a) = Ok (l_lumc c, l_pdfc c) /\
  table_of a (am_satellite a) (am_file_sat a) = Ok (l_lums c, l_pdfs c) /\ l_nz c = am_nz a /\ l_central c = am_central a /\ l_satellite c = am_satellite a /\ l_suffix c = sfx.
Proof.
  intros (C & S & (zmin & zmax & G1 & G2 & Z) & N & (name & T & P) & FC & FS & _).
  destruct (gives_number _ _ _ G1) as (vmin & V1 & W1). destruct (gives_number _ _ _ G2) as (vmax & V2 & W2).
  unfold lia_setup. unfold option_at at 1 2. rewrite C, S. cbn [bind].
  destruct (known (OStr (am_central a))) as [d|e] eqn:K1.
  2:{ cbn. split; [discriminate|]. intros (H & _). apply known_valid in H. congruence. }
  destruct (known_ok _ _ K1) as [E1 X1]. injection E1 as <-. cbn [bind].
  destruct (known (OStr (am_satellite a))) as [d|e] eqn:K2.
  2:{ cbn. split; [discriminate|]. intros (_ & H & _). apply known_valid in H. congruence. }
  destruct (known_ok _ _ K2) as [E2 X2]. injection E2 as <-. cbn [bind].
  unfold option_at. rewrite V1, V2, N. cbn [bind].
  rewrite (table_described missing columns o (am_central a) _ zmin zmax vmin vmax a (am_file_cen a) FC W1 W2 Z).
  rewrite (table_described missing columns o (am_satellite a) _ zmin zmax vmin vmax a (am_file_sat a) FS W1 W2 Z).
  rewrite Nat2Z.id, (text_get missing wrong _ _ _ _ T).
  destruct (table_of a (am_central a) (am_file_cen a)) as [[l1 p1]|e]; cbn [bind].
  2:{ split; [discriminate|]. intros (_ & _ & H & _). discriminate H. }
  destruct (table_of a (am_satellite a) (am_file_sat a)) as [[l2 p2]|e]; cbn [bind fst snd].
  2:{ split; [discriminate|]. intros (_ & _ & _ & H & _). discriminate H. }
  rewrite (suffix_part _ _ P). split.
  - intros H. injection H as <-. cbn. repeat split; assumption.
  - intros (_ & _ & H1 & H2 & H3 & H4 & H5 & H6). destruct c. cbn in *. injection H1 as A1 A2. injection H2 as A3 A4. now subst.
Qed.

(** ** execute *)
(** Parameters are not in the sections that are written. *)
Lemma large_small s t : central_section s <> satellite_section t.
Proof. discriminate. Qed.
Lemma parameters_kept s l b b' r sfx n : put_all (central_section s) l b = (b', r) -> b' (parameters_of sfx) n = b (parameters_of sfx) n.
Proof. intros H. apply (put_frame _ _ _ _ _ _ _ H). intros [E _]. discriminate E. Qed.
Lemma num_kept s l b b' r sfx n : put_all (central_section s) l b = (b', r) -> block_num b' (parameters_of sfx) n = block_num b (parameters_of sfx) n.
Proof. intros H. unfold block_num. now rewrite (parameters_kept _ _ _ _ _ _ _ H). Qed.
Lemma satellite_kept c s l b b' r : put_all (central_section s) l b = (b', r) -> satellite_values c b' = satellite_values c b.
Proof.
  intros H. unfold satellite_values, ia_parameters. fold (parameters_of (l_suffix c)).
  rewrite (num_kept _ _ _ _ _ _ "gamma_1h_amplitude" H), (num_kept _ _ _ _ _ _ "L_pivot" H), (num_kept _ _ _ _ _ _ "M_pivot" H), (num_kept _ _ _ _ _ _ "beta_sat" H). reflexivity.
Qed.

(** The values of the two parts in terms of AlignmentAmplitudes. *)
Definition central_list (a : amplitudes) (f : nat -> R) : list (string * bval) :=
  (("alignment_gi"%string, over_z (am_nz a) f) ::
   (if String.eqb (am_central a) "halo_mass" then [("M_pivot"%string, BDbl (match am_mpivot_cen a with Some m => pow10 m | None => 0 end)); ("beta"%string, BDbl (am_beta_cen a))] else [])
   ++ [("instance"%string, BStr (am_central a))])%list.
Definition satellite_list (a : amplitudes) (f : nat -> R) : list (string * bval) :=
  (("alignment_1h"%string, over_z (am_nz a) f) ::
   (if String.eqb (am_satellite a) "halo_mass" then [("M_pivot"%string, BDbl (match am_mpivot_sat a with Some m => pow10 m | None => 0 end)); ("beta_sat"%string, BDbl (am_beta_sat a))] else [])
   ++ [("instance"%string, BStr (am_satellite a))])%list.

Ltac three V := let H := fresh in pose proof V as H; cbn in H; destruct H as [H|[H|[H|[]]]]; symmetry in H.

Lemma central_described missing wrong columns o b sfx a c : described columns o b sfx a -> lia_setup missing wrong columns o = Ok c ->
  match alignment_gi a with
  | Ok (Some f) => central_values c b = Ok (central_list a f)
  | Ok None => False
  | Err e => exists e', central_values c b = Err e'
  end.
Proof.
  intros D S. apply (proj1 (setup_described _ _ _ _ _ _ _ _ D)) in S. destruct S as (VC & _ & TC & _ & NZ & CC & _ & SX).
  destruct D as (_ & _ & _ & _ & _ & _ & _ & G2 & _ & BC & _ & B2 & LP & _ & MP & _).
  unfold central_values, ia_parameters, alignment_gi, central_list. rewrite SX, CC. fold (parameters_of sfx).
  rewrite (proj1 (reads_num _ _ _ _) G2). cbn [bind].
  rewrite (may_has _ _ _ _ LP), (may_has _ _ _ _ MP), (may_has _ _ _ _ B2), NZ.
  three VC; rewrite H in *; cbn [String.eqb Ascii.eqb Bool.eqb andb] in *.
  - reflexivity.
  - unfold table_of in TC. cbn [String.eqb Ascii.eqb Bool.eqb andb] in TC. rewrite TC. cbn [bind].
    rewrite (proj1 (reads_num _ _ _ _) (BC ltac:(discriminate))).
    destruct (am_lpivot_cen a) as [lp|]; cbn [pivot option_map]; [|now eexists].
    rewrite (may_num _ _ _ _ LP). cbn [bind]. destruct (am_beta_two a) as [b2|]; [rewrite (may_num _ _ _ _ B2)|]; reflexivity.
  - rewrite (proj1 (reads_num _ _ _ _) (BC ltac:(discriminate))).
    destruct (am_mpivot_cen a) as [mp|]; cbn [pivot option_map]; [|now eexists].
    rewrite (may_num _ _ _ _ MP). cbn [bind]. destruct (am_beta_two a) as [b2|]; [now eexists|reflexivity].
Qed.
Lemma satellite_described missing wrong columns o b sfx a c : described columns o b sfx a -> lia_setup missing wrong columns o = Ok c ->
  match gamma_1h_amp a with
  | Ok (Some f) => satellite_values c b = Ok (satellite_list a f)
  | Ok None => False
  | Err e => exists e', satellite_values c b = Err e'
  end.
Proof.
  intros D S. apply (proj1 (setup_described _ _ _ _ _ _ _ _ D)) in S. destruct S as (_ & VS & _ & TS & NZ & _ & CS & SX).
  destruct D as (_ & _ & _ & _ & _ & _ & _ & _ & G1 & _ & BS & _ & LP & LS & MP & MS).
  unfold satellite_values, ia_parameters, gamma_1h_amp, satellite_list. rewrite SX, CS, LS, MS. fold (parameters_of sfx).
  rewrite (proj1 (reads_num _ _ _ _) G1). cbn [bind]. rewrite NZ.
  three VS; rewrite H in *; cbn [String.eqb Ascii.eqb Bool.eqb andb] in *.
  - reflexivity.
  - unfold table_of in TS. cbn [String.eqb Ascii.eqb Bool.eqb andb] in TS. rewrite TS. cbn [bind].
    rewrite (proj1 (reads_num _ _ _ _) (BS ltac:(discriminate))).
    destruct (am_lpivot_cen a) as [lp|]; cbn [pivot option_map].
    + rewrite (may_num _ _ _ _ LP). reflexivity.
    + unfold block_num. unfold may_read in LP. rewrite LP. now eexists.
  - rewrite (proj1 (reads_num _ _ _ _) (BS ltac:(discriminate))).
    destruct (am_mpivot_cen a) as [mp|]; cbn [pivot option_map].
    + rewrite (may_num _ _ _ _ MP). reflexivity.
    + unfold block_num. unfold may_read in MP. rewrite MP. now eexists.
Qed.

Lemma central_names a f n : In n (map fst (central_list a f)) <-> (n = "alignment_gi" \/ n = "instance" \/ (am_central a = "halo_mass" /\ (n = "M_pivot" \/ n = "beta")))%string.
Proof. unfold central_list. destruct (String.eqb_spec (am_central a) "halo_mass"); cbn; intuition congruence. Qed.
Lemma satellite_names a f n : In n (map fst (satellite_list a f)) <-> (n = "alignment_1h" \/ n = "instance" \/ (am_satellite a = "halo_mass" /\ (n = "M_pivot" \/ n = "beta_sat")))%string.
Proof. unfold satellite_list. destruct (String.eqb_spec (am_satellite a) "halo_mass"); cbn; intuition congruence. Qed.
Lemma central_nodup a f : NoDup (map fst (central_list a f)).
Proof. unfold central_list. destruct (String.eqb (am_central a) "halo_mass"); cbn; repeat constructor; cbn; intuition discriminate. Qed.
Lemma satellite_nodup a f : NoDup (map fst (satellite_list a f)).
Proof. unfold satellite_list. destruct (String.eqb (am_satellite a) "halo_mass"); cbn; repeat constructor; cbn; intuition discriminate. Qed.

Section Run.
  Context (missing wrong : string) (columns : oval -> res (list (R * R))) (o : options) (b : dblock) (sfx : string) (a : amplitudes) (c : lconfig).
  Hypothesis D : described columns o b sfx a.
  Hypothesis S : lia_setup missing wrong columns o = Ok c.
  Lemma suffix_c : l_suffix c = sfx.
  Proof. apply (proj1 (setup_described _ _ _ _ _ _ _ _ D)) in S. tauto. Qed.
  Lemma run_steps : lia_execute c b =
    match alignment_gi a with
    | Ok (Some f) => then_ (put_all (central_section sfx) (central_list a f) b)
        (fun b1 => match gamma_1h_amp a with Ok (Some g) => put_all (satellite_section sfx) (satellite_list a g) b1
                   | _ => write_part (satellite_section sfx) (satellite_values c) b1 end)
    | _ => write_part (central_section sfx) (central_values c) b
    end.
  Proof.
    pose proof (central_described missing wrong columns o b sfx a c D S) as C. pose proof (satellite_described missing wrong columns o b sfx a c D S) as T.
    unfold lia_execute, large_scale, small_scale. rewrite suffix_c. fold (central_section sfx) (satellite_section sfx).
    destruct (alignment_gi a) as [[f|]|e]; [|destruct C|].
    - unfold write_part at 1. rewrite C. destruct (put_all _ _ b) as [b1 [u|e1]] eqn:P; cbn; [|reflexivity].
      destruct (gamma_1h_amp a) as [[g|]|e2]; [|reflexivity|reflexivity]. unfold write_part. rewrite (satellite_kept c _ _ _ _ _ P), T. reflexivity.
    - destruct C as (e' & C). unfold write_part at 1 3. rewrite C. reflexivity.
  Qed.
  Lemma run_fails_satellite b1 f r : alignment_gi a = Ok (Some f) -> put_all (central_section sfx) (central_list a f) b = (b1, Ok r) ->
    (forall g, gamma_1h_amp a <> Ok (Some g)) -> exists e, lia_execute c b = (b1, Err e).
  Proof.
    intros E P N. pose proof (satellite_described missing wrong columns o b sfx a c D S) as T. rewrite run_steps, E, P. cbn.
    destruct (gamma_1h_amp a) as [[g|]|e]; [now destruct (N g)|destruct T|]. destruct T as (e' & T). exists e'. unfold write_part. now rewrite (satellite_kept c _ _ _ _ _ P), T.
  Qed.
  Lemma run_fails_central : (forall f, alignment_gi a <> Ok (Some f)) -> exists e, lia_execute c b = (b, Err e).
  Proof.
    intros N. pose proof (central_described missing wrong columns o b sfx a c D S) as C. rewrite run_steps.
    destruct (alignment_gi a) as [[f|]|e]; [now destruct (N f)|destruct C|]. destruct C as (e' & C). exists e'. unfold write_part. now rewrite C.
  Qed.
  Lemma run_done b' : lia_execute c b = (b', Ok tt) -> exists f g b1, alignment_gi a = Ok (Some f) /\ gamma_1h_amp a = Ok (Some g) /\
    put_all (central_section sfx) (central_list a f) b = (b1, Ok tt) /\ put_all (satellite_section sfx) (satellite_list a g) b1 = (b', Ok tt).
  Proof.
    intros H. destruct (alignment_gi a) as [[f|]|e] eqn:E.
    2:{ destruct run_fails_central as (e & X); [intros f F; congruence|]. rewrite X in H. discriminate H. }
    2:{ destruct run_fails_central as (e' & X); [intros f F; congruence|]. rewrite X in H. discriminate H. }
    destruct (put_all (central_section sfx) (central_list a f) b) as [b1 [[]|e1]] eqn:P.
    2:{ rewrite run_steps, E, P in H. discriminate H. }
    destruct (gamma_1h_amp a) as [[g|]|e2] eqn:G.
    - rewrite run_steps, E, P, G in H. cbn in H. exists f, g, b1. repeat split; assumption.
    - destruct (run_fails_satellite b1 f tt E P) as (e & X); [intros g F; congruence|]. rewrite X in H. discriminate H.
    - destruct (run_fails_satellite b1 f tt E P) as (e & X); [intros g F; congruence|]. rewrite X in H. discriminate H.
  Qed.
  Lemma run_ends : (exists b', lia_execute c b = (b', Ok tt)) <->
    (exists f g, alignment_gi a = Ok (Some f) /\ gamma_1h_amp a = Ok (Some g)) /\ forall s n, written_here (am_central a) (am_satellite a) sfx s n -> b s n = None.
  Proof.
    split.
    - intros (b' & H). destruct (run_done b' H) as (f & g & b1 & F & G & P & Q). split; [now exists f, g|].
      intros s n [[-> N]|[-> N]].
      + apply (central_names a f) in N. apply in_map_iff in N. destruct N as ([n' v] & N1 & N2). cbn in N1. subst n'. exact (proj1 (put_done _ _ _ _ P n v N2)).
      + apply (satellite_names a g) in N. apply in_map_iff in N. destruct N as ([n' v] & N1 & N2). cbn in N1. subst n'.
        pose proof (proj1 (put_done _ _ _ _ Q n v N2)) as X. rewrite (put_frame _ _ _ _ _ _ _ P) in X; [exact X|]. intros [A _]. discriminate A.
    - intros ((f & g & F & G) & W). destruct (put_runs (central_section sfx) (central_list a f) b (central_nodup a f)) as (b1 & P).
      { intros n N. apply W. left. split; [reflexivity|]. now apply (central_names a f). }
      destruct (put_runs (satellite_section sfx) (satellite_list a g) b1 (satellite_nodup a g)) as (b' & Q).
      { intros n N. rewrite (put_frame _ _ _ _ _ _ _ P) by (intros [A _]; discriminate A). apply W. right. split; [reflexivity|]. now apply (satellite_names a g). }
      exists b'. rewrite run_steps, F, P. cbn. now rewrite G.
  Qed.
  Lemma run_values b' : lia_execute c b = (b', Ok tt) -> exists f g, alignment_gi a = Ok (Some f) /\ gamma_1h_amp a = Ok (Some g) /\
    b' (central_section sfx) "alignment_gi"%string = Some (over_z (am_nz a) f) /\ b' (satellite_section sfx) "alignment_1h"%string = Some (over_z (am_nz a) g) /\
    b' (central_section sfx) "instance"%string = Some (BStr (am_central a)) /\ b' (satellite_section sfx) "instance"%string = Some (BStr (am_satellite a)) /\
    (am_central a = "halo_mass"%string -> exists m, am_mpivot_cen a = Some m /\ b' (central_section sfx) "M_pivot"%string = Some (BDbl (pow10 m)) /\ b' (central_section sfx) "beta"%string = Some (BDbl (am_beta_cen a))) /\
    (am_satellite a = "halo_mass"%string -> exists m, am_mpivot_sat a = Some m /\ b' (satellite_section sfx) "M_pivot"%string = Some (BDbl (pow10 m)) /\ b' (satellite_section sfx) "beta_sat"%string = Some (BDbl (am_beta_sat a))).
  Proof.
    intros H. destruct (run_done b' H) as (f & g & b1 & F & G & P & Q). exists f, g. split; [exact F|]. split; [exact G|].
    assert (C : forall n v, In (n, v) (central_list a f) -> b' (central_section sfx) n = Some v).
    { intros n v I. rewrite (put_frame _ _ _ _ _ _ _ Q) by (intros [A _]; discriminate A). exact (proj2 (put_done _ _ _ _ P n v I)). }
    assert (T : forall n v, In (n, v) (satellite_list a g) -> b' (satellite_section sfx) n = Some v) by (intros n v I; exact (proj2 (put_done _ _ _ _ Q n v I))).
    split; [apply C; now left|]. split; [apply T; now left|]. split; [apply C; right; apply in_or_app; right; now left|]. split; [apply T; right; apply in_or_app; right; now left|].
    split; intros E.
    - unfold alignment_gi in F. rewrite E in F. cbn in F. unfold central_list in C. rewrite E in C. cbn [String.eqb Ascii.eqb Bool.eqb andb app] in C.
      destruct (am_mpivot_cen a) as [m|]; [|discriminate F]. exists m. split; [reflexivity|]. split; apply C; cbn; tauto.
    - unfold gamma_1h_amp in G. rewrite E in G. cbn in G. unfold satellite_list in T. rewrite E in T. cbn [String.eqb Ascii.eqb Bool.eqb andb app] in T.
      destruct (am_mpivot_sat a) as [m|]; [|discriminate G]. exists m. split; [reflexivity|]. split; apply T; cbn; tauto.
  Qed.
End Run.

(** Whatever happens, nothing else changes. *)
Lemma central_written c b l : central_values c b = Ok l -> forall n, In n (map fst l) -> (n = "alignment_gi" \/ n = "instance" \/ (l_central c = "halo_mass" /\ (n = "M_pivot" \/ n = "beta")))%string.
Proof.
  unfold central_values. destruct (block_num b _ "gamma_2h_amplitude") as [g|e]; cbn [bind]; [|discriminate].
  destruct (String.eqb_spec (l_central c) "constant"); [intros H; injection H as <-; cbn; intuition congruence|].
  destruct (String.eqb_spec (l_central c) "luminosity").
  - destruct (has_value b _ "L_pivot"); [|discriminate]. destruct (block_num b _ "L_pivot"); cbn [bind]; [|discriminate]. destruct (block_num b _ "beta"); cbn [bind]; [|discriminate].
    destruct (has_value b _ "beta_two"); [destruct (block_num b _ "beta_two"); cbn [bind]; [|discriminate]|]; intros H; injection H as <-; cbn; intuition congruence.
  - destruct (String.eqb_spec (l_central c) "halo_mass").
    + destruct (has_value b _ "M_pivot"); [|discriminate]. destruct (block_num b _ "M_pivot"); cbn [bind]; [|discriminate]. destruct (block_num b _ "beta"); cbn [bind]; [|discriminate].
      destruct (has_value b _ "beta_two"); [discriminate|]. intros H; injection H as <-; cbn; intuition congruence.
    + cbn [bind]. intros H; injection H as <-; cbn; intuition congruence.
Qed.
Lemma satellite_written c b l : satellite_values c b = Ok l -> forall n, In n (map fst l) -> (n = "alignment_1h" \/ n = "instance" \/ (l_satellite c = "halo_mass" /\ (n = "M_pivot" \/ n = "beta_sat")))%string.
Proof.
  unfold satellite_values. destruct (block_num b _ "gamma_1h_amplitude") as [g|e]; cbn [bind]; [|discriminate].
  destruct (String.eqb_spec (l_satellite c) "constant"); [intros H; injection H as <-; cbn; intuition congruence|].
  destruct (String.eqb_spec (l_satellite c) "luminosity").
  - destruct (block_num b _ "L_pivot"); cbn [bind]; [|discriminate]. destruct (block_num b _ "beta_sat"); cbn [bind]; [|discriminate].
    intros H; injection H as <-; cbn; intuition congruence.
  - destruct (String.eqb_spec (l_satellite c) "halo_mass").
    + destruct (block_num b _ "M_pivot"); cbn [bind]; [|discriminate]. destruct (block_num b _ "beta_sat"); cbn [bind]; [|discriminate].
      intros H; injection H as <-; cbn; intuition congruence.
    + cbn [bind]. intros H; injection H as <-; cbn; intuition congruence.
Qed.
Lemma run_frame c b b' r s n : lia_execute c b = (b', r) -> ~ written_here (l_central c) (l_satellite c) (l_suffix c) s n -> b' s n = b s n.
Proof.
  unfold lia_execute. intros H N. unfold write_part at 1 in H.
  destruct (central_values c b) as [l|e] eqn:C; [|injection H as <- _; reflexivity].
  destruct (put_all _ _ b) as [b1 [[]|e]] eqn:P; cbn in H.
  - assert (K : b1 s n = b s n). { apply (put_frame _ _ _ _ _ _ _ P). intros [A B]. apply N. left. split; [exact A|]. exact (central_written c b l C n B). }
    unfold write_part in H. destruct (satellite_values c b1) as [l'|e] eqn:T; [|injection H as <- _; exact K].
    rewrite <- K. apply (put_frame _ _ _ _ _ _ _ H). intros [A B]. apply N. right. split; [exact A|]. exact (satellite_written c b1 l' T n B).
  - injection H as <- _. apply (put_frame _ _ _ _ _ _ _ P). intros [A B]. apply N. left. split; [exact A|]. exact (central_written c b l C n B).
Qed.
(** Without a number for the amplitude nothing happens. *)
Lemma gamma_needed c b b' r : lia_execute c b = (b', r) -> (forall x, ~ reads b (parameters_of (l_suffix c)) "gamma_2h_amplitude" x) -> b' = b /\ exists e, r = Err e.
Proof.
  unfold lia_execute, write_part at 1, central_values, ia_parameters. fold (parameters_of (l_suffix c)). intros H N.
  destruct (block_num b (parameters_of (l_suffix c)) "gamma_2h_amplitude") as [x|e] eqn:E; [apply reads_num in E; now destruct (N x)|].
  cbn in H. injection H as <- <-. split; [reflexivity|now exists e].
Qed.
Lemma setup_when missing wrong columns o b sfx a : described columns o b sfx a ->
  ((exists c, lia_setup missing wrong columns o = Ok c) <->
   (forall d, d = am_central a \/ d = am_satellite a -> d = "constant"%string \/ d = "halo_mass"%string \/ (d = "luminosity"%string /\ (2 <= am_nz a)%nat))).
Proof.
  intros D. assert (T : forall d file, (d = "luminosity"%string -> exists gal, file = Some gal) ->
    (valid d /\ (exists t, table_of a d file = Ok t)) <-> (d = "constant"%string \/ d = "halo_mass"%string \/ (d = "luminosity"%string /\ (2 <= am_nz a)%nat))).
  { intros d file F. unfold table_of. destruct (String.eqb_spec d "luminosity") as [E|E].
    - destruct (F E) as (gal & ->). unfold luminosity_array, compute_luminosity_pdf. destruct (Nat.leb_spec (am_nz a) 1) as [L|L].
      + split; [intros (_ & t & H); discriminate H|]. rewrite E. intros [H|[H|[_ H]]]; [discriminate H|discriminate H|lia].
      + split; [intros _; right; right; split; [exact E|lia]|]. intros _. split; [rewrite E; cbn; tauto|now eexists].
    - split.
      + intros (V & _). cbn in V. destruct V as [V|[V|[V|[]]]]; [now left|congruence|now right; left].
      + intros [H|[H|[H _]]]; [| |contradiction]; (split; [rewrite H; cbn; tauto|now eexists]). }
  pose proof D as (_ & _ & _ & _ & _ & FC & FS & _).
  assert (TC := T (am_central a) (am_file_cen a) ltac:(intros E; destruct (FC E) as (f & gal & _ & _ & X); now exists gal)).
  assert (TS := T (am_satellite a) (am_file_sat a) ltac:(intros E; destruct (FS E) as (f & gal & _ & _ & X); now exists gal)).
  split.
  - intros (c & S). apply (proj1 (setup_described _ _ _ _ _ _ _ _ D)) in S. destruct S as (V1 & V2 & T1 & T2 & _).
    intros d [->| ->]; [apply TC|apply TS]; (split; [assumption|]); eexists; eassumption.
  - intros H. destruct (proj2 TC (H _ (or_introl eq_refl))) as (V1 & [l1 p1] & T1). destruct (proj2 TS (H _ (or_intror eq_refl))) as (V2 & [l2 p2] & T2).
    exists {| l_lumc := l1; l_pdfc := p1; l_lums := l2; l_pdfs := p2; l_nz := am_nz a; l_central := am_central a; l_satellite := am_satellite a; l_suffix := sfx |}.
    apply (setup_described missing wrong columns o b sfx a _ D). cbn. repeat split; assumption.
Qed.
(** The central part always writes its dependence. *)
Lemma central_instance c b l : central_values c b = Ok l -> In ("instance"%string, BStr (l_central c)) l.
Proof.
  unfold central_values. cbv zeta. destruct (block_num b (ia_parameters c) "gamma_2h_amplitude") as [g|e]; [cbn [bind]|discriminate].
  match goal with |- bind ?m _ = _ -> _ => destruct m as [k|e]; [cbn [bind]|discriminate] end.
  intros H; injection H as <-. apply in_or_app. right. now left.
Qed.
Lemma run_instance c b b' : lia_execute c b = (b', Ok tt) -> b (large_scale c) "instance"%string = None /\ exists v, b' (large_scale c) "instance"%string = Some v.
Proof.
  unfold lia_execute. unfold write_part at 1. intros H. destruct (central_values c b) as [l|e] eqn:C; [|discriminate].
  destruct (put_all (large_scale c) l b) as [b1 [[]|e]] eqn:P; [|discriminate]. cbn in H.
  destruct (put_done _ _ _ _ P _ _ (central_instance c b l C)) as [A B]. split; [exact A|]. eexists.
  unfold write_part in H. destruct (satellite_values c b1) as [l'|e]; [|discriminate]. rewrite <- B. apply (put_frame _ _ _ _ _ _ _ H). intros [E _]. exact (large_small _ _ E).
Qed.
Lemma run_once c b b' r : lia_execute c b = (b', Ok tt) -> lia_execute c b' <> (r, Ok tt).
Proof. intros H K. destruct (run_instance c b b' H) as (_ & v & V). destruct (run_instance c b' r K) as (N & _). congruence. Qed.
