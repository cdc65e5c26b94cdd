From Verif Require Import Words WordsFacts ReconModel ReconSpec ReconProofs ReconBegin ReconProps.

(** ** C51, the begin of a search while the node runs *)
(** The application is told that a search begins exactly by a call of li_can_slv_process that finds the bus off, the controller
    error passive or any error kind at all, while no search is running and the application has not set the state to stopped. *)
Theorem C51_begins_partial : forall g e s s' o,
  rstep g e s = (s', o) ->
  (In OOnlineStart o <->
   r_state s = ROff /\ r_ls s <> LStopped /\
   exists mid h b l now late, e = EPoll mid h b l now late /\ (b = BOff \/ b = BPassive \/ l <> LecNone)).
Proof.
  intros g e s s' o P. destruct e as [bd dl|h late|mid h b l now late|h f|x]; cbn [rstep] in P.
  - split; [|intros (_ & _ & mid & h & b & l & now & late & E & _); discriminate]. destruct dl; cbn in P; injection P as _ <-; intros [].
  - split; [|intros (_ & _ & mid & h' & b & l & now & late' & E & _); discriminate]. intro I. exfalso.
    rewrite start_eq in P.
    assert (N1 : ~ In OOnlineStart (st_obs h s)) by (unfold st_obs; destruct (ok_mode h MStopped), (_ && _), (ok_mode h MListen); cbn; intuition discriminate).
    assert (N2 : ~ In OOnlineStart (dl_obs h s)) by (unfold dl_obs; destruct (ok_mode h MStopped), (_ && _), (ok_mode h MOperational); cbn; intuition discriminate).
    destruct (r_ls s); injection P as _ <-; contradiction.
  - apply poll_parts in P. destruct P as (s1 & o1 & o2 & P1 & -> & N2 & OF). rewrite in_app_iff.
    assert (T : troubled b l = true <-> (b = BOff \/ b = BPassive \/ l <> LecNone)) by (destruct b, l; cbn; intuition congruence).
    destruct (is_off s) eqn:O.
    + assert (A := proj1 (is_off_iff s) O). destruct (not_stopped s) eqn:NS.
      * assert (B := proj1 (not_stopped_iff s) NS). destruct (pre_begins _ _ _ _ _ _ _ _ O NS P1) as (X & _ & _). rewrite X, T.
        split; [intros [I|I]; [|contradiction]|].
        -- split; [exact A|]. split; [exact B|]. exists mid, h, b, l, now, late. auto.
        -- intros (_ & _ & m' & h' & b' & l' & n' & t' & E & Y). injection E as _ _ <- <- _ _. left. exact Y.
      * destruct (pre_stopped _ _ _ _ _ _ _ _ O NS P1) as (_ & M & _). apply modes_no_start in M.
        split; [tauto|]. intros (_ & Y & _). apply not_stopped_iff in Y. congruence.
    + rewrite pre_quiet in P1 by exact O. injection P1 as _ <-. split; [intros [[]|I]; contradiction|]. intros (Y & _). apply is_off_iff in Y. congruence.
  - split; [|intros (_ & _ & m & h' & b & l & now & late & E & _); discriminate]. intro I. exfalso.
    apply rx_cases in P. destruct P as [(_ & _ & ->)|(_ & _ & [->|(r & _ & o' & -> & F & _)])]; [exact I|destruct I as [E|[]]; discriminate|].
    destruct I as [E|I]; [discriminate|]. rewrite Forall_forall in F. exact (F _ I).
  - split; [|intros (_ & _ & mid & h & b & l & now & late & E & _); discriminate]. injection P as _ <-. intros [].
Qed.
Print Assumptions C51_begins_partial.
Example C51_begins_ex :
  let s := rend g0 rec_zero (ex_start ++ [ERx hok FOther; quietp 310]) in
  r_state s = ROff /\ r_ls s = LInit /\ r_hw s = MOperational /\
  snd (rstep g0 (EPoll false hok BActive LecStuff 400 400) s) =
    [OMode MStopped; OMode MListen; OOnlineStart; OMode MStopped; OMode MListen; OMode MStopped; ORate 250; OTry 250; OMode MListen].
Proof. vm_compute. repeat split. Qed.

(** Refuted: an error leaves the node operational or begins a search.  If the application has set the state to stopped while
    the controller is operational, one error switches the controller to listen-only; no search begins, and however
    li_can_slv_process and frames go on, the node never sends again until the application itself acts. *)
Theorem C51_stopped_refuted : forall g s mid h b l now late es,
  r_state s = ROff -> r_ls s = LStopped -> r_hw s = MOperational ->
  accepts h -> b = BOff \/ l <> LecNone -> Forall poll_or_rx es ->
  let s1 := fst (rstep g (EPoll mid h b l now late) s) in
  r_state s1 = ROff /\ r_hw s1 = MListen /\
  r_state (rend g s1 es) = ROff /\ r_hw (rend g s1 es) <> MOperational /\
  ~ In OOnlineStart (obs_of (rruns g s1 es)) /\ ~ In (OMode MOperational) (obs_of (rruns g s1 es)).
Proof.
  intros g s mid h b l now late es A B _ AC T F s1.
  assert (O := proj2 (is_off_iff s) A). assert (NS : not_stopped s = false) by (unfold not_stopped; rewrite B; reflexivity).
  destruct (rstep g (EPoll mid h b l now late) s) as [s2 o] eqn:P. cbn [fst] in s1. cbn [rstep] in P.
  apply poll_parts in P. destruct P as (s3 & o1 & o2 & P1 & -> & N2 & OF).
  destruct (pre_stopped _ _ _ _ _ _ _ _ O NS P1) as (SM & _ & Q & _).
  assert (FO : first_of b l = true) by (destruct b, l; try reflexivity; destruct T; congruence).
  destruct (Q FO AC) as [Q1 Q2]. destruct (same_off _ _ SM) as (X & _ & _). rewrite O in X. destruct (OF X) as [E _].
  assert (K : parked s1).
  { unfold s1. rewrite E. split; [apply is_off_iff; exact X|]. split; [rewrite SM; exact B|]. rewrite Q1, Q2. split; discriminate. }
  destruct (parked_run g es s1 K F) as ((K1 & _ & _ & K2) & N3 & N4).
  split; [exact (proj1 K)|]. split; [unfold s1; rewrite E; exact Q2|]. auto.
Qed.
Print Assumptions C51_stopped_refuted.
Example C51_stopped_ex :
  let s := rend g0 rec_zero (ex_start ++ [ERx hok FOther; quietp 310; ESetState LStopped]) in
  r_state s = ROff /\ r_ls s = LStopped /\ r_hw s = MOperational /\
  snd (rstep g0 (EPoll false hok BActive LecStuff 400 400) s) = [OMode MStopped; OMode MListen].
Proof. vm_compute. repeat split. Qed.
