(** Properties of the real-space modules: pk_to_real.py, pyfftlog.py, correct_cosmo_real.py, convert_theta.py. *)
From Coq Require Import ZArith Lia.
From Verif Require Import Base Spec Quad Interp BaseFacts FftModel FftSpec RsModel RsSpec RsFacts RsFacts2 RsFacts3 FftFacts7 RsExample.
Open Scope R_scope.

(** C55 *)
Theorem C55_value : forall lgr lgi ty n k_min k_max lo hi T n_in k_in pk pts, 0 < k_min -> k_min < k_max ->
  make_transformer lgr lgi ty n k_min k_max lo hi = Ok T -> transform T n_in k_in pk = Ok pts ->
  let D := step n k_min k_max in let c := mid k_min k_max in let k := log_grid n c D in
  forall rp xi, In (rp, xi) pts <-> exists j, (j < n)%nat /\ rp * exp D = log_grid n (t_kr T / c) D j /\ lo < rp < hi /\
    2 * PI * rp * xi = sumR n (fun i => k i * log_interp n_in k_in pk (k i) * bessel_kernel lgi n (t_mu T) D (ln (k i * (rp * exp D)))).
Proof. exact transform_value. Qed.
Print Assumptions C55_value.

Theorem C55_mode : forall lgr lgi ty n k_min k_max lo hi T n_in k_in pk pts m psi, 0 < k_min -> k_min < k_max ->
  make_transformer lgr lgi ty n k_min k_max lo hi = Ok T -> transform T n_in k_in pk = Ok pts ->
  let D := step n k_min k_max in let c := mid k_min k_max in let k := log_grid n c D in let y := mode_freq n D m in
  (1 <= m)%nat -> (2 * m < n)%nat -> (forall i, (i < n)%nat -> k i * log_interp n_in k_in pk (k i) = cos (2 * y * ln (k i) + psi)) ->
  forall rp xi, In (rp, xi) pts -> 2 * PI * rp * xi = cos (bessel_phase lgi (t_mu T) 0 y + psi - 2 * y * ln (rp * exp D)).
Proof. exact transform_mode. Qed.
Print Assumptions C55_mode.

(** The order of the transform, the wavenumbers and the low-ringing choice of kr. *)
Theorem C55_set_up : forall lgr lgi ty n k_min k_max lo hi, 0 < k_min -> k_min < k_max ->
  (ty = "wp"%string \/ ty = "ds"%string -> (2 <= n)%nat -> exists T, make_transformer lgr lgi ty n k_min k_max lo hi = Ok T) /\
  forall T, make_transformer lgr lgi ty n k_min k_max lo hi = Ok T ->
    (ty = "wp"%string /\ t_mu T = 0 \/ ty = "ds"%string /\ t_mu T = 2) /\
    0 < t_kr T /\ Rabs (ln (t_kr T)) <= step n k_min k_max / 2 /\ low_ringing lgi (t_mu T) 0 (step n k_min k_max) (t_kr T) /\
    (forall i, (i < n)%nat -> t_k T i = log_grid n (mid k_min k_max) (step n k_min k_max) i) /\
    forall n_in k_in pk, exists pts, transform T n_in k_in pk = Ok pts.
Proof. exact set_up. Qed.
Print Assumptions C55_set_up.

(** Entry j + 1 carries the separation at which entry j was computed. *)
Theorem C55_own_separation_refuted : forall lgr lgi ty n k_min k_max lo hi T, 0 < k_min -> k_min < k_max ->
  make_transformer lgr lgi ty n k_min k_max lo hi = Ok T -> let D := step n k_min k_max in let c := mid k_min k_max in
  forall j, t_rp T j < log_grid n (t_kr T / c) D j /\ t_rp T (S j) = log_grid n (t_kr T / c) D j.
Proof. exact one_step_off. Qed.
Print Assumptions C55_own_separation_refuted.

Example C55_case : exists T pts, make_transformer gam0 gam0 "wp" 4 1 (exp 3) 0 1000 = Ok T /\
  transform T 4 (log_grid 4 (mid 1 (exp 3)) 1) toy_pk = Ok pts /\ List.length pts = 4%nat /\
  (forall i, (i < 4)%nat -> log_grid 4 (mid 1 (exp 3)) 1 i * log_interp 4 (log_grid 4 (mid 1 (exp 3)) 1) toy_pk (log_grid 4 (mid 1 (exp 3)) 1 i)
     = cos (2 * mode_freq 4 1 1 * ln (log_grid 4 (mid 1 (exp 3)) 1 i) + 0)).
Proof. exact toy_transform. Qed.

(** C56 *)
Theorem C56_sign : forall n k p q, (1 <= n)%nat ->
  ((forall i, (i < n)%nat -> 0 < p i) -> 0 < log_interp n k p q) /\ ((forall i, (i < n)%nat -> p i < 0) -> log_interp n k p q < 0).
Proof. exact log_interp_sign. Qed.
Print Assumptions C56_sign.
Theorem C56_nodes : forall n k p i, (2 <= n)%nat -> (forall i, (i < n)%nat -> 0 < k i) -> increasing n k -> (i < n)%nat -> log_interp n k p (k i) = p i.
Proof. exact log_interp_node. Qed.
Print Assumptions C56_nodes.
Theorem C56_power_law : forall n k p A s q, (2 <= n)%nat -> (forall i, (i < n)%nat -> 0 < k i) -> increasing n k -> A <> 0 ->
  (forall i, (i < n)%nat -> p i = A * Rpower (k i) s) -> log_interp n k p q = A * Rpower q s.
Proof. exact log_interp_power. Qed.
Print Assumptions C56_power_law.
Theorem C56_scaling : forall n k p c q, (2 <= n)%nat -> (forall i, (i < n)%nat -> 0 < k i) -> increasing n k ->
  log_interp n k (fun i => c * p i) q = c * log_interp n k p q.
Proof. exact log_interp_scale. Qed.
Print Assumptions C56_scaling.
Theorem C56_within : forall n k p lo hi q, (2 <= n)%nat -> (forall i, (i < n)%nat -> 0 < k i) -> increasing n k ->
  (forall i, (i < n)%nat -> lo <= p i <= hi) -> k 0%nat <= q <= k (n - 1)%nat -> lo <= log_interp n k p q <= hi.
Proof. exact log_interp_hull. Qed.
Print Assumptions C56_within.
Example C56_case : increasing 3 (fun i => INR i + 1) /\ (forall i, (i < 3)%nat -> 0 < INR i + 1) /\
  (forall i, (i < 3)%nat -> (fun i => -2 * Rpower (INR i + 1) 3) i < 0).
Proof.
  split; [intros i Hi; rewrite S_INR; lra|]. split; [intros i Hi; pose proof (pos_INR i); lra|].
  intros i Hi. assert (0 < Rpower (INR i + 1) 3) by apply exp_pos. cbv beta. lra.
Qed.

(** C57 *)
Theorem C57_initialised : forall lgr lgi n mu dlnr q kr0 kropt, (1 <= n)%nat -> (kropt <= 2)%nat -> q = 0 \/ no_pole mu q /\ real_axis lgi ->
  exists kr xs, fhti lgr lgi n mu dlnr q kr0 kropt = Ok (kr, xs) /\ forall i, (i < List.length xs)%nat -> exists v, nth_error xs i = Some (Some v).
Proof. exact fhti_ok. Qed.
Print Assumptions C57_initialised.
Theorem C57_never_fails : forall lgr lgi n mu dlnr q kr0 kropt kr xs, fhti lgr lgi n mu dlnr q kr0 kropt = Ok (kr, xs) -> forall a rk dir, (dir = 1 \/ dir = -1)%Z ->
  (exists o, fht n a xs dir = Ok o) /\ (exists o, fhtq n a xs dir = Ok o) /\ (exists o, fftl n a xs rk dir = Ok o).
Proof. exact never_fails. Qed.
Print Assumptions C57_never_fails.
Theorem C57_linear : forall lgr lgi n mu dlnr q kr0 kropt kr xs, fhti lgr lgi n mu dlnr q kr0 kropt = Ok (kr, xs) -> forall a b c d dir, (dir = 1 \/ dir = -1)%Z ->
  (forall oa ob oc, fht n a xs dir = Ok oa -> fht n b xs dir = Ok ob -> fht n (fun i => c * a i + d * b i) xs dir = Ok oc -> forall j, (j < n)%nat -> oc j = c * oa j + d * ob j) /\
  (forall oa ob oc, fhtq n a xs dir = Ok oa -> fhtq n b xs dir = Ok ob -> fhtq n (fun i => c * a i + d * b i) xs dir = Ok oc -> forall j, (j < n)%nat -> oc j = c * oa j + d * ob j).
Proof. exact linear. Qed.
Print Assumptions C57_linear.
Theorem C57_kr : forall lgr lgi n mu dlnr q kr0 kr xs,
  (0 < kr0 -> dlnr <> 0 -> fhti lgr lgi n mu dlnr q kr0 1 = Ok (kr, xs) -> 0 < kr /\ Rabs (ln kr - ln kr0) <= Rabs dlnr / 2 /\ low_ringing lgi mu q dlnr kr) /\
  (fhti lgr lgi n mu dlnr q kr0 0 = Ok (kr, xs) -> kr = kr0).
Proof. intros. split; [apply kr_chosen|apply kr_kept]. Qed.
Print Assumptions C57_kr.
(** Two poles of the gamma functions at a distance of 2 or more: an array is stored in one cell. *)
Theorem C57_two_poles_refuted : forall n dlnr kr kropt, (1 <= n)%nat -> (kropt <= 2)%nat -> fhti gam0 gam0 n (-3) dlnr 2 kr kropt = Err "ValueError".
Proof. exact two_poles. Qed.
Print Assumptions C57_two_poles_refuted.
Example C57_case : no_pole 0 (1 / 2) /\ real_axis gam0 /\ exists kr xs, fhti gam0 gam0 5 0 1 (1 / 2) 1 1 = Ok (kr, xs).
Proof. exact toy_biased. Qed.

(** C70 *)
Theorem C70_modes : forall lgr lgi n mu dlnr q kr0 kropt kr xs, 0 < kr0 -> dlnr <> 0 -> fhti lgr lgi n mu dlnr q kr0 kropt = Ok (kr, xs) ->
  forall rc dir m psi a out, 0 < rc -> (dir = 1 \/ dir = -1)%Z -> (1 <= m)%nat -> (2 * m < n)%nat ->
  let r := log_grid n rc dlnr in let k := log_grid n (kr / rc) dlnr in let y := mode_freq n dlnr m in
  (forall i, (i < n)%nat -> a i = Rpower (r i) (IZR dir * q) * cos (2 * y * ln (r i) + psi)) -> fht n a xs dir = Ok out -> forall j, (j < n)%nat ->
  out j = Rpower (k j) (- IZR dir * q) * (if Z.eqb dir 1 then bessel_gain lgr mu q y else / bessel_gain lgr mu q y) * cos (bessel_phase lgi mu q y + psi - 2 * y * ln (k j)).
Proof. exact modes. Qed.
Print Assumptions C70_modes.
Theorem C70_powers : forall lgr lgi n mu dlnr q kr0 kropt kr xs, 0 < kr0 -> dlnr <> 0 -> q = 0 \/ no_pole mu q /\ real_axis lgi -> fhti lgr lgi n mu dlnr q kr0 kropt = Ok (kr, xs) ->
  forall rc dir a out, 0 < rc -> (dir = 1 \/ dir = -1)%Z ->
  let r := log_grid n rc dlnr in let k := log_grid n (kr / rc) dlnr in let U := bessel_gain lgr mu q 0 * cos (bessel_phase lgi mu q 0) in
  (forall i, (i < n)%nat -> a i = Rpower (r i) (IZR dir * q)) -> fht n a xs dir = Ok out -> forall j, (j < n)%nat ->
  out j = Rpower (k j) (- IZR dir * q) * (if Req_EM_T q 0 then 1 else if Z.eqb dir 1 then U else / U).
Proof. exact powers. Qed.
Print Assumptions C70_powers.
Theorem C70_kernel : forall lgr lgi n mu dlnr kr0 kropt kr xs, 0 < kr0 -> dlnr <> 0 -> fhti lgr lgi n mu dlnr 0 kr0 kropt = Ok (kr, xs) ->
  (Nat.even n = true -> low_ringing lgi mu 0 dlnr kr) ->
  forall rc dir a out, 0 < rc -> (dir = 1 \/ dir = -1)%Z -> fht n a xs dir = Ok out -> let r := log_grid n rc dlnr in let k := log_grid n (kr / rc) dlnr in
  forall j, (j < n)%nat -> out j = sumR n (fun i => a i * bessel_kernel lgi n mu dlnr (ln (r i * k j))).
Proof. exact kernel. Qed.
Print Assumptions C70_kernel.
Theorem C70_inverse : forall lgr lgi n mu dlnr q kr0 kropt kr xs, 0 < kr0 -> dlnr <> 0 -> q = 0 \/ no_pole mu q /\ real_axis lgi -> fhti lgr lgi n mu dlnr q kr0 kropt = Ok (kr, xs) ->
  (Nat.even n = true -> low_ringing lgi mu q dlnr kr) -> forall a dir dir', (dir = 1 /\ dir' = -1 \/ dir = -1 /\ dir' = 1)%Z ->
  (forall out back, fht n a xs dir = Ok out -> fht n out xs dir' = Ok back -> forall j, (j < n)%nat -> back j = a j) /\
  (forall out back, fhtq n a xs dir = Ok out -> fhtq n out xs dir' = Ok back -> forall j, (j < n)%nat -> back j = a j).
Proof. exact inverse. Qed.
Print Assumptions C70_inverse.
Theorem C70_orthogonal : forall lgr lgi n mu dlnr kr0 kropt kr xs, 0 < kr0 -> dlnr <> 0 -> fhti lgr lgi n mu dlnr 0 kr0 kropt = Ok (kr, xs) ->
  (Nat.even n = true -> low_ringing lgi mu 0 dlnr kr) ->
  forall a dir out, (dir = 1 \/ dir = -1)%Z -> fht n a xs dir = Ok out -> sumR n (fun j => out j * out j) = sumR n (fun j => a j * a j).
Proof. exact orthogonal. Qed.
Print Assumptions C70_orthogonal.
(** What the round trip through fftl does: it inverts once the array is multiplied by (k / k_c)^dir in between, and
    then returns A (r / r_c)^dir. *)
Theorem C70_fftl : forall lgr lgi n mu dlnr q kr0 kropt kr xs, 0 < kr0 -> dlnr <> 0 -> q = 0 \/ no_pole mu q /\ real_axis lgi -> fhti lgr lgi n mu dlnr q kr0 kropt = Ok (kr, xs) ->
  (Nat.even n = true -> low_ringing lgi mu q dlnr kr) -> forall a rk dir dir' out back, 0 < rk -> (dir = 1 /\ dir' = -1 \/ dir = -1 /\ dir' = 1)%Z ->
  fftl n a xs rk dir = Ok out -> fftl n (fun i => out i * log_grid n 1 (IZR dir * dlnr) i) xs rk dir' = Ok back -> forall j, (j < n)%nat -> back j = a j * log_grid n 1 (IZR dir * dlnr) j.
Proof. exact fftl_trip. Qed.
Print Assumptions C70_fftl.
Theorem C70_fftl_round_trip_refuted : exists xs out back, fhti gam0 gam0 2 0 1 0 2 0 = Ok (2, xs) /\
  fftl 2 (fun _ => 1) xs 1 1 = Ok out /\ fftl 2 out xs 1 (-1) = Ok back /\ back 0%nat = exp (-1) /\ back 0%nat <> 1.
Proof. exact fftl_no_round. Qed.
Print Assumptions C70_fftl_round_trip_refuted.
Example C70_case : exists kr xs, fhti gam0 gam0 6 2 (1 / 3) (1 / 2) 1 1 = Ok (kr, xs) /\ low_ringing gam0 2 (1 / 2) (1 / 3) kr /\ no_pole 2 (1 / 2) /\ real_axis gam0.
Proof. exact toy_even. Qed.

(** C71 *)
Theorem C71_value : forall T J rho sections ns r, project T J rho sections ns = Ok r ->
  exists nsv nb, ns = Some nsv /\ bin_count J = Some nb /\ (1 <= nb)%nat /\ fst r = map (t_rp T) (kept T) /\ List.length (snd r) = nb /\
    (String.eqb (j_type J) "ds" = true -> (1 <= fst rho)%nat /\ forall i, (i < fst rho)%nat -> snd rho i = snd rho 0%nat) /\
    forall i, (i < nb)%nat -> exists name s f rows, section_name J i = Some name /\ sections name = Some s /\ n_bin nsv (S i) = Some f /\ (1 <= s_nz s)%nat /\ List.length rows = s_nz s /\
      (forall j, (j < s_nz s)%nat -> transform T (s_nk s) (s_k s) (s_pk s j) = Ok (nth j rows [])) /\
      List.length (nth i (snd r) []) = List.length (fst r) /\
      forall x, (x < List.length (fst r))%nat -> nth x (nth i (snd r) []) 0 =
        scale_of (j_type J) rho * simpson (s_nz s) (fun j => interp1d (FillValue 0) (n_size nsv) (n_z nsv) f (s_z s j) * snd (nth x (nth j rows []) (0, 0))) (s_z s).
Proof. exact project_value. Qed.
Print Assumptions C71_value.
Theorem C71_separable : forall lgr lgi ty n k_min k_max lo hi T J rho sections ns r, 0 < k_min -> k_min < k_max -> make_transformer lgr lgi ty n k_min k_max lo hi = Ok T ->
  project T J rho sections ns = Ok r -> forall i name s nsv f g p pts, section_name J i = Some name -> sections name = Some s -> ns = Some nsv -> n_bin nsv (S i) = Some f ->
  (i < List.length (snd r))%nat -> (2 <= s_nk s)%nat -> (forall l, (l < s_nk s)%nat -> 0 < s_k s l) -> increasing (s_nk s) (s_k s) ->
  (forall j l, (j < s_nz s)%nat -> (l < s_nk s)%nat -> s_pk s j l = g j * p l) -> transform T (s_nk s) (s_k s) p = Ok pts ->
  nth i (snd r) [] = map (fun q => scale_of (j_type J) rho * simpson (s_nz s) (fun j => interp1d (FillValue 0) (n_size nsv) (n_z nsv) f (s_z s j) * g j) (s_z s) * snd q) pts.
Proof. exact project_separable. Qed.
Print Assumptions C71_separable.
Theorem C71_no_overlap : forall T J rho sections ns r, project T J rho sections ns = Ok r -> forall i name s nsv, section_name J i = Some name -> sections name = Some s -> ns = Some nsv ->
  (i < List.length (snd r))%nat -> (forall j, (j < s_nz s)%nat -> s_z s j < n_z nsv 0%nat \/ n_z nsv (n_size nsv - 1)%nat < s_z s j) ->
  forall x, In x (nth i (snd r) []) -> x = 0.
Proof. exact project_no_overlap. Qed.
Print Assumptions C71_no_overlap.
Theorem C71_own_inputs : forall T J rho sections sections' ns ns' r r', project T J rho sections (Some ns) = Ok r -> project T J rho sections' (Some ns') = Ok r' ->
  n_size ns = n_size ns' -> n_z ns = n_z ns' ->
  fst r = fst r' /\ forall i name, section_name J i = Some name -> sections name = sections' name -> n_bin ns (S i) = n_bin ns' (S i) -> nth i (snd r) [] = nth i (snd r') [].
Proof. exact project_own. Qed.
Print Assumptions C71_own_inputs.
Theorem C71_no_bins : forall T J rho sections ns, bin_count J = Some 0%nat -> j_type J <> "ds"%string -> project T J rho sections (Some ns) = Err "UnboundLocalError".
Proof. exact no_bins. Qed.
Print Assumptions C71_no_bins.
Example C71_case : exists T r, make_transformer gam0 gam0 "wp" 4 1 (exp 3) 0 1000 = Ok T /\
  project T toy_job (0%nat, fun _ => 0) (fun _ => Some toy_section) (Some toy_nz) = Ok r /\ List.length (snd r) = 2%nat.
Proof. exact toy_project. Qed.

(** C58 *)
Theorem C58_bins : forall run data ty z b, ty = "wp"%string \/ ty = "ds"%string -> exists b', correct run data (List.length z) ty z b = (b', Ok tt) /\
  (forall x, b_rp b' x = b_rp b x * prod (map (ratio_rp run data) z)) /\
  (forall j x, (j < List.length z)%nat -> exists rc, ratio_corr run data ty (nth j z 0) = Ok rc /\ b_bins b' j x = b_bins b j x * rc) /\
  (forall j x, (List.length z <= j)%nat -> b_bins b' j x = b_bins b j x).
Proof. exact correct_spec. Qed.
Print Assumptions C58_bins.
(** What the ratios are, without the names of the model: [wp] goes with the inverse of the expansion
    rate, [ds] with the critical surface density, the separations with the distances in Mpc/h. *)
Theorem C58_values : forall run data z b, (forall zi, In zi z -> regular run zi /\ regular data zi) ->
  (exists b', correct run data (List.length z) "wp" z b = (b', Ok tt) /\
     (forall x, b_rp b' x * prod (map (dist_h data) z) = b_rp b x * prod (map (dist_h run) z)) /\
     forall j x, (j < List.length z)%nat -> b_bins b' j x * hubble run (nth j z 0) = b_bins b j x * hubble data (nth j z 0)) /\
  (exists b', correct run data (List.length z) "ds" z b = (b', Ok tt) /\
     (forall x, b_rp b' x * prod (map (dist_h data) z) = b_rp b x * prod (map (dist_h run) z)) /\
     forall j x, (j < List.length z)%nat ->
       b_bins b' j x * (c_h data * sigma_crit run (nth j z 0)) = b_bins b j x * (c_h run * sigma_crit data (nth j z 0))).
Proof. exact correct_values. Qed.
Print Assumptions C58_values.
Theorem C58_same_cosmology : forall c ty z b, ty = "wp"%string \/ ty = "ds"%string -> (forall zi, In zi z -> regular c zi) -> exists b', correct c c (List.length z) ty z b = (b', Ok tt) /\
  (forall x, b_rp b' x = b_rp b x) /\ forall j x, b_bins b' j x = b_bins b j x.
Proof. exact correct_same. Qed.
Print Assumptions C58_same_cosmology.
Theorem C58_chain : forall a b c ty z B, ty = "wp"%string \/ ty = "ds"%string -> (forall zi, In zi z -> regular a zi /\ regular b zi /\ regular c zi) ->
  exists B1 B2 B3, correct b a (List.length z) ty z B = (B1, Ok tt) /\ correct c b (List.length z) ty z B1 = (B2, Ok tt) /\ correct c a (List.length z) ty z B = (B3, Ok tt) /\
    (forall x, b_rp B2 x = b_rp B3 x) /\ forall j x, b_bins B2 j x = b_bins B3 j x.
Proof. exact correct_chain. Qed.
Print Assumptions C58_chain.
Theorem C58_rejected : forall run data nb ty z b, List.length z <> nb \/ (ty <> "wp"%string /\ ty <> "ds"%string /\ (1 <= nb)%nat) -> correct run data nb ty z b = (b, Err "ValueError").
Proof. exact correct_rejected. Qed.
Print Assumptions C58_rejected.
(** Two bins at the same redshift: the shared separations are rescaled twice. *)
Theorem C58_own_ratio_refuted : exists run data z b b', regular run z /\ regular data z /\ correct run data 2 "wp" [z; z] b = (b', Ok tt) /\
  ratio_rp run data z = 2 /\ forall x, b_rp b' x = b_rp b x * 4.
Proof. exact toy_compounds. Qed.
Print Assumptions C58_own_ratio_refuted.
Example C58_case : regular (toy_cosmo 1) (1 / 4) /\ regular (toy_cosmo 2) (1 / 4) /\ ratio_rp (toy_cosmo 2) (toy_cosmo 1) (1 / 4) <> 1.
Proof. exact toy_regular. Qed.

(** C59 *)
Theorem C59_round_trip : forall other vals u v vals' vals'', supported u -> supported v ->
  theta_execute other v (vals, u) = Ok (vals', v) -> theta_execute other u (vals', v) = Ok (vals'', u) -> forall i, vals'' i = vals i.
Proof. exact theta_round. Qed.
Print Assumptions C59_round_trip.
Theorem C59_via : forall other vals u v w vals1 vals2 vals3, supported v -> supported w ->
  theta_execute other v (vals, u) = Ok (vals1, v) -> theta_execute other w (vals1, v) = Ok (vals2, w) -> theta_execute other w (vals, u) = Ok (vals3, w) ->
  forall i, vals2 i = vals3 i.
Proof. exact theta_chain. Qed.
Print Assumptions C59_via.
Theorem C59_same_angle : forall other out vals u, supported out -> supported u \/ u = "radian"%string \/ u = "radians"%string ->
  exists vals' s s', theta_execute other out (vals, u) = Ok (vals', out) /\ unit_size other (canon u) = Some s /\ unit_size other out = Some s' /\ 0 < s' /\ forall i, vals' i * s' = vals i * s.
Proof. exact theta_angle. Qed.
Print Assumptions C59_same_angle.
Theorem C59_degrees : forall other vals, exists v1 v2 v3, theta_execute other "deg" (vals, "radians"%string) = Ok (v1, "deg"%string) /\
  theta_execute other "arcmin" (v1, "deg"%string) = Ok (v2, "arcmin"%string) /\ theta_execute other "arcsec" (v2, "arcmin"%string) = Ok (v3, "arcsec"%string) /\
  forall i, v1 i = vals i * 180 / PI /\ v2 i = 60 * v1 i /\ v3 i = 60 * v2 i.
Proof. exact theta_sixty. Qed.
Print Assumptions C59_degrees.
Theorem C59_output_units : forall u, (supported u /\ theta_setup u = Ok u) \/ (~ supported u /\ theta_setup u = Err "ValueError").
Proof. exact setup_spec. Qed.
Print Assumptions C59_output_units.
Example C59_case : supported "deg" /\ supported "arcmin" /\ ~ supported "hours".
Proof. split; [cbn; tauto|]. split; [cbn; tauto|]. cbn. intros [H|[H|[H|[H|[]]]]]; discriminate. Qed.
