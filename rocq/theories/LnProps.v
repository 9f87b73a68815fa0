(** C135: the legacy HOD module without a loop. *)
From Coq Require Import ZArith Lia.
From Verif Require Import Base Quad Interp FftModel PipeModel HodModel OptModel ChainModel PredModel MiniModel AupModel LiaModel LhModel LnModel.
From Verif Require Import PipeSpec AupSpec LiaSpec LhSpec LhSpec2 LnSpec LhFacts5 LnFacts LhProps.
Open Scope R_scope.

(** The same options are taken, with the same result. *)
Theorem C135_setup : forall missing wrong rows opens o, ln_setup missing wrong rows opens o = lh_setup missing wrong rows opens o.
Proof. exact same_setup. Qed.
Print Assumptions C135_setup.
(** No block lets execute complete, and none gets more than the labels. *)
Theorem C135_never : forall component rest missing wrong rows opens o t osec c b, strict component -> ln_setup missing wrong rows opens o = Ok c ->
  o "hod_section_name"%string = Some (OStr t) -> section_is o "observable_section_name" "stellar_mass_function" osec ->
  exists b' e, ln_execute component rest c b = (b', Err e) /\ only_labels b b' (lower t) osec.
Proof.
  intros component rest missing wrong rows opens o t osec c b S H T (u & U & ->). rewrite same_setup in H. destruct (setup_names _ _ _ _ _ _ H) as (H1 & H2 & _).
  rewrite <- (H1 t T), <- (H2 u U). apply never. exact S.
Qed.
Print Assumptions C135_never.
(** Where the module with the loop has what it needs, the class refuses the one name it does not know. *)
Theorem C135_refused : forall component rest missing wrong rows opens o b sec osec vals c md c', strict component -> hod_says rows o b sec osec vals true c md -> apart sec osec vals ->
  ln_setup missing wrong rows opens o = Ok c' -> (forall n, b sec n = None /\ b osec n = None) ->
  exists b', ln_execute component rest c' b = (b', Err "ValueError"%string) /\ only_labels b b' sec osec.
Proof.
  intros component rest missing wrong rows opens o b sec osec vals c md c' S Y A H F. rewrite same_setup in H. destruct (reached _ _ _ _ _ _ _ _ _ _ _ _ Y A H F) as (kw & b1 & name & _ & L & X & _).
  exists b1. split; [apply X, S | exact L].
Qed.
Print Assumptions C135_refused.
(** Were that name taken, the class would get every parameter of the model, bin by bin. *)
Theorem C135_arguments : forall missing wrong rows opens o b sec osec vals c md c', hod_says rows o b sec osec vals true c md -> apart sec osec vals ->
  ln_setup missing wrong rows opens o = Ok c' -> (forall n, b sec n = None /\ b osec n = None) ->
  exists kw b' name, text o "hod_model" "Cacciato" name /\ only_labels b b' sec osec /\
    (forall component rest, takes component ["halobias"%string] -> ln_execute component rest c' b = rest kw b') /\
    NoDup (map fst kw) /\ ~ In "halo_bias"%string (map fst kw) /\ (forall p, In p (parameters_of_model name) -> given b vals name (nbins (c_set c)) kw p) /\
    (exists mass z dn hb, b "hmf"%string "m_h"%string = Some (BArr mass) /\ b "hmf"%string "z"%string = Some (BArr z) /\ b "hmf"%string "dndlnmh"%string = Some (BTab dn) /\ b "halobias"%string "b_hb"%string = Some (BTab hb) /\
      In ("mass"%string, KArr mass) kw /\ In ("z_vec"%string, KArr z) kw /\ In ("dndlnm"%string, KTab dn) kw /\ In ("halobias"%string, KTab hb) kw) /\
    (exists a s, may_read b vals "A_cen" a /\ may_read b vals "A_sat" s /\ In ("A_cen"%string, KNum a) kw /\ In ("A_sat"%string, KNum s) kw) /\
    In ("hod_settings"%string, KSettings (hs_nobs (c_set c))) kw.
Proof.
  intros missing wrong rows opens o b sec osec vals c md c' Y A H F. rewrite same_setup in H. destruct (reached _ _ _ _ _ _ _ _ _ _ _ _ Y A H F) as (kw & b1 & name & T & L & _ & X).
  exists kw, b1, name. split; [exact T |]. split; [exact L | exact X].
Qed.
Print Assumptions C135_arguments.

(** A block on which hod_interface.py runs and this module does not. *)
Definition only_defaults : list string -> list string -> res unit :=
  fun d l => if forallb (fun n => existsb (String.eqb n) d) l then Ok tt else Err "ValueError".
Lemma only_defaults_strict : strict only_defaults.
Proof.
  intros d l n I N. unfold only_defaults. destruct (forallb _ l) eqn:E; [| reflexivity]. elim N. rewrite forallb_forall in E. specialize (E n I). apply existsb_exists in E. destruct E as (m & Im & Em).
  apply String.eqb_eq in Em. now subst m.
Qed.
Lemma also_takes : takes (fun d l => only_defaults ("halobias" :: d)%string l) ["halobias"%string].
Proof.
  intros d l H. unfold only_defaults. replace (forallb _ l) with true; [reflexivity |]. symmetry. apply forallb_forall. intros n I. apply existsb_exists. exists n. split; [| apply String.eqb_refl].
  destruct (H n I) as [J | [J | []]]; [now right | now left].
Qed.
Example C135_case : exists c' b' b1 kw, legacy_run false "" "" (fun _ => Err ""%string) (fun _ => Err ""%string) zh_options zh_block b' /\
  ln_setup "" "" (fun _ => Err ""%string) (fun _ => Err ""%string) zh_options = Ok c' /\
  ln_execute only_defaults (fun _ b => (b, Ok tt)) c' zh_block = (b1, Err "ValueError"%string) /\
  ln_execute (fun d l => only_defaults ("halobias" :: d)%string l) (fun kw' b => (b, if Nat.eqb (List.length kw') 12 then Ok tt else Err "")) c' zh_block = (b1, Ok tt) /\
  In ("alpha"%string, KArr kw) (match ln_arguments c' (parameters_of_model "Zheng") zh_block with Ok l => l | Err _ => [] end) /\ kw = [0].
Proof.
  destruct C125_case as (b' & Rn). destruct Rn as (c' & H & E). exists c', b'. do 2 eexists. split; [exists c'; split; [exact H | exact E] |]. rewrite same_setup. split; [exact H |].
  assert (C : ln_setup "" "" (fun _ => Err ""%string) (fun _ => Err ""%string) zh_options = Ok c') by (rewrite same_setup; exact H).
  clear - C. unfold ln_setup, lh_setup, lh_bins in C. vm_compute in C. injection C as <-. repeat split; vm_compute; try reflexivity. tauto.
Qed.
