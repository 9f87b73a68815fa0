(** Lemmas about LhModel: the observable functions on the grid of the class, and valid inputs. *)
From Coq Require Import Ascii ZArith Lia Lra FunctionalExtensionality.
From Verif Require Import Base Quad BaseFacts QuadFacts Interp InterpFacts AddModel AddFacts2 FftModel PipeModel PipeSpec PipeFacts HodModel Spec HodSpec HodFacts2 OptModel ChainModel PredModel MiniModel AupModel AupSpec LiaModel LiaSpec LhModel LhSpec LhSpec2 LhFacts LhFacts2 LhFacts3 LhFacts4 LhFacts5 LhFacts6 LhFacts7 LhFacts8 LhFacts9 LhFacts10.
Open Scope R_scope.

Lemma at_node fl n x y i : (2 <= n)%nat -> incr n x -> (i < n)%nat -> interp1d fl n x y (x i) = y i.
Proof.
  intros Hn I Hi. assert (A : x 0%nat <= x i) by (apply (incr_le n); [exact I|lia|lia]). assert (B : x i <= x (n - 1)%nat) by (apply (incr_le n); [exact I|lia|lia]).
  destruct fl; cbn [interp1d]; repeat (destruct (Rlt_dec _ _); [lra|]); now apply interp_node.
Qed.
(** Without a file the grid of observables of the bin is that of the class. *)
Lemma bin_range s k lo hi : hs_file s = None -> (0 < nz s)%nat -> (2 <= hs_nobs s)%nat -> nth k (hs_obs_min s) 0 < nth k (hs_obs_max s) 0 ->
  least_of (bin_observables s k) lo -> most_of (bin_observables s k) hi -> logspace (log10 lo) (log10 hi) (hs_nobs s) = hod_obs s k 0.
Proof.
  intros F Z N L ((j & q & J & Q & ->) & A2) ((j' & q' & J' & Q' & ->) & B2). set (a := nth k (hs_obs_min s) 0) in *. set (d := nth k (hs_obs_max s) 0) in *.
  assert (E : forall j q, hod_obs s k j q = logspace a d (hs_nobs s) q) by (intros; unfold hod_obs, log_obs_min, log_obs_max; now rewrite F).
  rewrite !E in *. pose proof (logspace_incr a d _ N L) as I.
  assert (E0 : logspace a d (hs_nobs s) q = pow10 a).
  { rewrite <- (logspace_first a d (hs_nobs s)) by lia. apply Rle_antisym; [|apply (incr_le _ _ 0 q I); lia]. rewrite <- (E j 0%nat). apply A2. exists j, 0%nat. repeat split; try assumption; lia. }
  assert (E1 : logspace a d (hs_nobs s) q' = pow10 d).
  { rewrite <- (logspace_last a d (hs_nobs s)) by lia. apply Rle_antisym; [apply (incr_le _ _ q' (hs_nobs s - 1) I); lia|]. rewrite <- (E j' (hs_nobs s - 1)%nat). apply B2. exists j', (hs_nobs s - 1)%nat. repeat split; try assumption; lia. }
  rewrite E0, E1, !log10_pow10. apply functional_extensionality. intros q0. now rewrite E.
Qed.
Lemma valid_occupied c md k : valid_mass c -> valid_obs c k \/ is_cacciato md = false ->
  match md with Cacciato p => valid_cacciato p /\ ca_A_cen p = None | _ => within_unit (amp_cen md) end -> at_least_minus_one (amp_sat md) -> occupied c md k.
Proof.
  intros V O C S j m J M. destruct (is_cacciato md) eqn:E.
  - destruct O as [O|O]; [|discriminate]. destruct md as [p|p|p|p|p]; try discriminate. destruct C as [C D]. split; [now apply cacciato_cen_nonneg|now apply cacciato_sat_nonneg].
  - assert (W : within_unit (amp_cen md)) by (destruct md; try discriminate; exact C). destruct (analytic_nonneg c md k E W S) as [A1 A2]. split; [now apply A1|now apply A2].
Qed.
Lemma scaled_column c p k i vz v m : (2 <= nz (c_set c))%nat -> (m < c_nm c)%nat -> holds_array vz (nz (c_set c)) (hod_z (c_set c) k) ->
  holds_table v (nz (c_set c)) (c_nm c) (fun j m => unit_scale c (star_frac c (COF c p) k j m)) -> interpolated_column Extrapolate vz v m (c_zvec c i) (stellar_fraction c (Cacciato p) k i m).
Proof.
  intros N M Z T. pose proof (interface_column c k i vz v Extrapolate (fun b j m => unit_scale c (star_frac c (COF c p) b j m)) m N M Z T) as H.
  replace (stellar_fraction c (Cacciato p) k i m) with (z_interpolate c Extrapolate (fun b j => unit_scale c (star_frac c (COF c p) b j m)) k i); [exact H|].
  unfold stellar_fraction, stellar_fraction_of, unit_scale, z_interpolate. cbn [interp1d]. destruct (String.eqb (hs_unit (c_set c)) unit_h2); [|reflexivity].
  rewrite Rmult_comm, <- interp_scal. apply interp_ext; [exact N|]. intros j _. apply Rmult_comm.
Qed.
