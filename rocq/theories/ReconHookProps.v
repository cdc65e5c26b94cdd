(** C81: the callbacks at the beginning and at the end of a search come in pairs. *)
From Verif Require Import Words WordsFacts ReconModel ReconSpec ReconProofs ReconInv ReconHookSpec ReconHook.

(** Whatever happens, starts and stops alternate, a stop is of the kind of the start before it, and a search is running
    exactly when one is open. *)
Theorem C81_paired_partial g es :
  Forall ev_operational es -> no_restart g es ->
  exists q, brackets Closed (obs_of (rruns g rec_zero es)) = Some q /\ (q = Closed <-> ~ searching (rend g rec_zero es)).
Proof.
  intros F N. destruct (hook_all g es F N) as (q & B & V). exists q. split; [exact B|]. unfold inv_hook in V. unfold searching.
  destruct (r_state (rend g rec_zero es)); try contradiction; (split; [intros ->|]); try tauto; try (destruct V; discriminate); destruct V; congruence.
Qed.
Print Assumptions C81_paired_partial.

(** The rate that is told is the one the controller then works with. *)
Theorem C81_told_partial g es mid h b l now late s' o r :
  rstep g (EPoll mid h b l now late) (rend g rec_zero es) = (s', o) -> told r o ->
  ~ searching s' /\ r_hw s' = MOperational /\ (known_rate r = true -> ok_rate h r = true -> r_rate s' = r).
Proof.
  intros P T. assert (K : tell h s' r).
  { apply step_cases in P. inversion P; subst.
    - exfalso. revert T. apply mute_told, mute_modes. assumption.
    - rewrite !told_app in T. destruct T as [T|[T|[T|T]]].
      + exfalso. revert T. apply mute_told, mute_modes. assumption.
      + exfalso. unfold on_obs in T. apply (mute_told (sm_obs h MStopped ++ sm_obs h MListen ++ nb_obs h (rend g rec_zero es)) r).
        * unfold mute. rewrite !Forall_app. repeat split; [apply mute_modes, sm_modes|apply mute_modes, sm_modes|apply mute_nb].
        * destruct T as [[T|T]|[T|T]]; try discriminate; [left|right]; exact T.
      + exfalso. revert T. apply mute_told, mute_modes. assumption.
      + eapply pcase_told; eassumption.
    - eapply pcase_told; eassumption. }
  destruct K as (A & B & C). split; [|split; assumption]. unfold searching. rewrite A. auto.
Qed.
Print Assumptions C81_told_partial.

Lemma start_once g r h0 late0 es : Forall not_start es -> no_restart g (EInit r false :: EStart h0 late0 :: es).
Proof.
  intros F a h late b E. destruct a as [|e1 [|e2 a]]; [discriminate| |].
  - cbn in E. injection E as <- _. cbn. auto.
  - exfalso. cbn in E. injection E as _ _ E. rewrite E in F. apply Forall_app in F. destruct F as [_ F]. inversion F. assumption.
Qed.

Definition acc : hwo := HwO (fun _ => true) (fun _ => true).
(** the driver refuses the operational mode *)
Definition refuse : hwo := HwO (fun m => match m with MOperational => false | _ => true end) (fun _ => true).
Definition gx : rcfg := RCfg false 10 100.
Definition poll_at (h : hwo) (b : buss) (l : lec) (now : N) : rev := EPoll false h b l now now.
(** a start-up search that ends with a frame, then the bus goes off and a second search ends with a frame *)
Definition pairs_ex : list rev :=
  [EInit 500 false; EStart acc 0; poll_at acc BActive LecNone 11; ERx acc FOther; poll_at acc BActive LecNone 12;
   poll_at acc BOff LecForm 20; poll_at acc BActive LecForm 25; ERx acc FOther; poll_at acc BActive LecNone 26].
Example C81_case :
  Forall ev_operational pairs_ex /\ no_restart gx pairs_ex /\
  filter (fun o => match o with OStartupStart | OStartupStop _ | OOnlineStart | OOnlineStop _ => true | _ => false end) (obs_of (rruns gx rec_zero pairs_ex)) =
  [OStartupStart; OStartupStop 1000; OOnlineStart; OOnlineStop 500].
Proof.
  split; [repeat constructor|]. split; [|vm_compute; reflexivity].
  apply start_once. repeat constructor.
Qed.
Print Assumptions C81_case.

(** Refuted in general: the driver refuses the operational mode at the end of the search, no end is told although the search is
    over, and the next search is announced by a second start. *)
Theorem C81_refused_end_refuted :
  ~ (forall g es, no_restart g es -> exists q, brackets Closed (obs_of (rruns g rec_zero es)) = Some q /\ (q = Closed <-> ~ searching (rend g rec_zero es))).
Proof.
  intro H.
  destruct (H gx [EInit 500 false; EStart acc 0; ERx acc FOther; poll_at refuse BActive LecNone 12; poll_at acc BOff LecForm 20]) as (q & B & _).
  - apply start_once. repeat constructor.
  - vm_compute in B. discriminate.
Qed.
Print Assumptions C81_refused_end_refuted.
(** ... lcsa_start during a search tells a second start ... *)
Theorem C81_restart_refuted :
  ~ (forall g es, Forall ev_operational es -> exists q, brackets Closed (obs_of (rruns g rec_zero es)) = Some q).
Proof.
  intro H. destruct (H gx [EInit 500 false; EStart acc 0; EStart acc 5]) as (q & B); [repeat constructor|]. vm_compute in B. discriminate.
Qed.
Print Assumptions C81_restart_refuted.
(** ... and a start-up rate that is not supported is told although the controller works with another one. *)
Theorem C81_unknown_rate_refuted :
  ~ (forall g es mid h b l now late s' o r, rstep g (EPoll mid h b l now late) (rend g rec_zero es) = (s', o) -> accepts h -> told r o -> r_rate s' = r).
Proof.
  intro H.
  assert (K := H gx [EInit 800 false; EStart acc 0; poll_at acc BActive LecNone 11] false acc BActive LecNone 101 101).
  destruct (rstep gx (EPoll false acc BActive LecNone 101 101) (rend gx rec_zero [EInit 800 false; EStart acc 0; poll_at acc BActive LecNone 11])) as [s' o] eqn:E.
  assert (R := K s' o 800 eq_refl). vm_compute in E. injection E as <- <-.
  assert (X := R (conj (fun _ => eq_refl) (fun _ => eq_refl)) (or_introl (or_intror (or_intror (or_introl eq_refl))))).
  vm_compute in X. discriminate.
Qed.
Print Assumptions C81_unknown_rate_refuted.
