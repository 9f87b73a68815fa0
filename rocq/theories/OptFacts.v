(** Proofs about the option reading. *)
From Coq Require Import ZArith.
From Verif Require Import Base Spec Interp HodModel PkModel AddModel PipeModel OptModel OptSpec BaseFacts.
Open Scope string_scope.

Definition mem (n : string) (l : list string) : bool := existsb (String.eqb n) l.
Lemma mem_In n l : mem n l = true -> In n l.
Proof. intros H. apply existsb_exists in H as (x & Hx & E). apply String.eqb_eq in E. subst. exact Hx. Qed.

(** ** Defaults written out *)
Section Agree.
  Variables (missing wrong : string) (o o' : options).
  Hypothesis H : forall n, In n names_read -> o n = o' n \/
    (o n = None /\ ((exists v, dget documented n = Some v /\ o' n = Some v) \/
                    (In n documented_none /\ o' n = Some (OStr "None") /\ missing = "ValueError"))).
  Let cases n : mem n names_read = true -> mem n documented_none = false ->
    o n = o' n \/ (o n = None /\ exists v, dget documented n = Some v /\ o' n = Some v).
  Proof.
    intros Hn Hd. destruct (H n (mem_In n _ Hn)) as [E|[E [D|(D & _)]]]; [left; exact E|right; split; [exact E|exact D]|].
    exfalso. assert (mem n documented_none = true); [|congruence]. apply existsb_exists. exists n. split; [exact D|apply String.eqb_refl].
  Qed.
  Lemma wo_bool n d : mem n names_read = true -> mem n documented_none = false ->
    dget documented n = Some (OBool d) -> get_bool missing wrong o n (Some d) = get_bool missing wrong o' n (Some d).
  Proof.
    intros Hn Hd D. unfold get_bool. destruct (cases n Hn Hd) as [-> |(E & v & D' & E')]; [reflexivity|].
    rewrite E, E'. rewrite D in D'. injection D' as <-. reflexivity.
  Qed.
  Lemma wo_string n d : mem n names_read = true -> mem n documented_none = false ->
    dget documented n = Some (OStr d) -> get_string missing wrong o n (Some d) = get_string missing wrong o' n (Some d).
  Proof.
    intros Hn Hd D. unfold get_string. destruct (cases n Hn Hd) as [-> |(E & v & D' & E')]; [reflexivity|].
    rewrite E, E'. rewrite D in D'. injection D' as <-. reflexivity.
  Qed.
  Lemma wo_double n d : mem n names_read = true -> mem n documented_none = false ->
    dget documented n = Some (ODbl d) -> get_double missing wrong o n (Some d) = get_double missing wrong o' n (Some d).
  Proof.
    intros Hn Hd D. unfold get_double. destruct (cases n Hn Hd) as [-> |(E & v & D' & E')]; [reflexivity|].
    rewrite E, E'. rewrite D in D'. injection D' as <-. reflexivity.
  Qed.
  Lemma wo_int n d : mem n names_read = true -> mem n documented_none = false ->
    dget documented n = Some (OInt d) -> get_int missing wrong o n (Some d) = get_int missing wrong o' n (Some d).
  Proof.
    intros Hn Hd D. unfold get_int. destruct (cases n Hn Hd) as [-> |(E & v & D' & E')]; [reflexivity|].
    rewrite E, E'. rewrite D in D'. injection D' as <-. reflexivity.
  Qed.
  Lemma wo_opt n d : mem n names_read = true -> mem n documented_none = false ->
    dget documented n = Some (ODbl d) -> string_or_none missing wrong o n (Some d) = string_or_none missing wrong o' n (Some d).
  Proof.
    intros Hn Hd D. unfold string_or_none. destruct (cases n Hn Hd) as [-> |(E & v & D' & E')]; [reflexivity|].
    rewrite E, E'. rewrite D in D'. injection D' as <-. reflexivity.
  Qed.
  Lemma wo_none n : mem n names_read = true -> dget documented n = None ->
    string_or_none missing wrong o n None = string_or_none missing wrong o' n None.
  Proof.
    intros Hn D. unfold string_or_none. destruct (H n (mem_In n _ Hn)) as [-> |[E [(v & D' & _)|(_ & E' & M)]]]; [reflexivity|congruence|].
    rewrite E, E', M. reflexivity.
  Qed.
  Lemma wo_plain n : mem n names_read = true -> mem n documented_none = false -> dget documented n = None -> o n = o' n.
  Proof. intros Hn Hd D. destruct (cases n Hn Hd) as [E|(_ & v & D' & _)]; [exact E|congruence]. Qed.

  Ltac rd := first
    [ rewrite wo_none by reflexivity
    | match goal with |- context [get_bool missing wrong o ?n (Some ?d)] => rewrite (wo_bool n d) by reflexivity end
    | match goal with |- context [get_string missing wrong o ?n (Some ?d)] => rewrite (wo_string n d) by reflexivity end
    | match goal with |- context [get_double missing wrong o ?n (Some ?d)] => rewrite (wo_double n d) by reflexivity end
    | match goal with |- context [get_int missing wrong o ?n (Some ?d)] => rewrite (wo_int n d) by reflexivity end
    | match goal with |- context [string_or_none missing wrong o ?n (Some ?d)] => rewrite (wo_opt n d) by reflexivity end
    | match goal with |- context [string_or_none missing wrong o ?n None] => rewrite (wo_none n) by reflexivity end ].
  Ltac pl := match goal with |- context [o ?n] => rewrite (wo_plain n) by reflexivity end.
  Lemma ag_settings suf : In suf ["hod"; "ia"; "ia_1"; "ia_2"; "smf"] ->
    read_settings missing wrong o suf = read_settings missing wrong o' suf.
  Proof.
    intros Hs. unfold read_settings. rewrite (wo_string "observable_h_unit" "1/h^2") by reflexivity.
    unfold has_value, get_array, get_count. unfold get_string at 1 3.
    simpl in Hs. destruct Hs as [<-|[<-|[<-|[<-|[<-|[]]]]]]; cbn [append]; repeat pl; reflexivity.
  Qed.
  Lemma ag_hmf : setup_hmf_config missing wrong o = setup_hmf_config missing wrong o'.
  Proof. unfold setup_hmf_config. repeat rd. reflexivity. Qed.
  Lemma ag_req : setup_pipeline_parameters missing wrong o = setup_pipeline_parameters missing wrong o'.
  Proof. unfold setup_pipeline_parameters. repeat rd. reflexivity. Qed.
  Lemma ag_names al sp : read_ia_names missing wrong o al sp = read_ia_names missing wrong o' al sp.
  Proof. unfold read_ia_names, read_pop. repeat rd. unfold get_string. repeat pl. reflexivity. Qed.
  Lemma ag_hod g al sp : setup_hod missing wrong o g al sp = setup_hod missing wrong o' g al sp.
  Proof.
    unfold setup_hod, read_pop. rewrite ag_names.
    rewrite !ag_settings by (simpl; tauto). repeat rd. reflexivity.
  Qed.
  Lemma ag_update d m : read_update missing o d m = read_update missing o' d m.
  Proof. unfold read_update. repeat pl. reflexivity. Qed.
  Lemma ag_setup d : setup missing wrong o d = setup missing wrong o' d.
  Proof.
    unfold setup. rewrite ag_req. destruct (setup_pipeline_parameters missing wrong o'); [|reflexivity]. cbn [bind].
    rewrite ag_hod, ag_hmf. destruct (setup_hod missing wrong o' (q_galaxy a) (q_alignment a) (q_split a)); [|reflexivity].
    cbn [bind]. destruct (setup_hmf_config missing wrong o'); [|reflexivity]. cbn [bind]. rewrite ag_update. reflexivity.
  Qed.
End Agree.
