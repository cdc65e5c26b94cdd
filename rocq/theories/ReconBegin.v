(** Proofs about the begin of a search while the node runs. *)
From Verif Require Import Words WordsFacts ReconModel ReconSpec ReconProofs.

Lemma modes_no_start o : modes_only o -> ~ In OOnlineStart o.
Proof. intros F I. unfold modes_only in F. rewrite Forall_forall in F. exact (F _ I). Qed.
Lemma nb_no_start h x : ~ In OOnlineStart (nb_obs h x).
Proof. unfold nb_obs. destruct (ok_mode h MStopped), (ok_rate h (nb_rate x)), (ok_mode h MListen); cbn; intuition discriminate. Qed.
Lemma off_no_start h x : ~ In OOnlineStart (off_obs h x).
Proof. unfold off_obs. destruct (ok_mode h MStopped), (_ && _), (ok_mode h MOperational), (r_cause x); cbn; intuition discriminate. Qed.
Lemma pcase_no_start chk h p l now late sw s s' o : pcase chk h p l now late sw s s' o -> ~ In OOnlineStart o.
Proof. intro P. destruct P; try apply nb_no_start; try apply off_no_start; intros []. Qed.
Lemma w_listen_same h s : same_m s (if ok_mode h MListen then w_hw MListen s else s).
Proof. destruct (ok_mode h MListen); [apply w_hw_same|destruct s; reflexivity]. Qed.
Lemma two_same h s : same_m s (sm_state h MListen (sm_state h MStopped s)).
Proof. eapply same_trans; apply sm_same. Qed.
Lemma two_modes h : modes_only (sm_obs h MStopped ++ sm_obs h MListen).
Proof. apply Forall_app; split; apply sm_modes. Qed.
Lemma one_mode h : modes_only (if ok_mode h MListen then [OMode MListen] else []).
Proof. destruct (ok_mode h MListen); repeat constructor. Qed.

Definition troubled (b : buss) (l : lec) : bool :=
  match b, l with BPassive, _ | BOff, _ => true | _, LecNone => false | _, _ => true end.
Definition first_of (b : buss) (l : lec) : bool := match b, l with BOff, _ => true | _, LecNone => false | _, _ => true end.
Definition passive (b : buss) : bool := match b with BPassive => true | _ => false end.

(** the handler of the driver's errors, in a form without the case distinction on bus and error *)
Lemma pre_form h b l late sw s :
  is_off s = true ->
  pre_part h b l late sw s =
  ((if first_of b l then set_mode h MStopped ;;> set_mode h MListen ;;> online h CMainBoff late sw else rskip) ;;>
   (if passive b then cp_mode h MListen ;;> online h CMainEwrn late sw else rskip)) s.
Proof. intro O. destruct b, l; cbn [pre_part first_of passive]; unfold rif; rewrite ?O; reflexivity. Qed.
Lemma pre_quiet h b l late sw s : is_off s = false -> pre_part h b l late sw s = (s, []).
Proof. intro O. destruct b, l; cbn [pre_part]; unfold rif; rewrite ?O; reflexivity. Qed.

(** stopped: modes only *)
Lemma pre_stopped h b l late sw s s' o :
  is_off s = true -> not_stopped s = false -> pre_part h b l late sw s = (s', o) ->
  same_m s s' /\ modes_only o /\ (first_of b l = true -> accepts h -> r_mode s' = MListen /\ r_hw s' = MListen) /\
  (r_mode s' = r_mode s \/ r_mode s' = MListen) /\ (r_hw s' = r_hw s \/ r_hw s' = MStopped \/ r_hw s' = MListen).
Proof.
  intros O NS P. rewrite pre_form in P by exact O. unfold rseq at 1 in P.
  assert (C1 : (if first_of b l then set_mode h MStopped ;;> set_mode h MListen ;;> online h CMainBoff late sw else rskip) s =
               if first_of b l then (sm_state h MListen (sm_state h MStopped s), sm_obs h MStopped ++ sm_obs h MListen) else (s, [])).
  { destruct (first_of b l); [|reflexivity]. rewrite pre_first by exact O. cbv zeta. rewrite NS. reflexivity. }
  rewrite C1 in P. clear C1.
  set (s1 := if first_of b l then sm_state h MListen (sm_state h MStopped s) else s).
  set (o1 := if first_of b l then sm_obs h MStopped ++ sm_obs h MListen else []).
  assert (S1 : same_m s s1) by (unfold s1; destruct (first_of b l); [apply two_same|destruct s; reflexivity]).
  assert (M1 : modes_only o1) by (unfold o1; destruct (first_of b l); [apply two_modes|constructor]).
  replace (if first_of b l then (sm_state h MListen (sm_state h MStopped s), sm_obs h MStopped ++ sm_obs h MListen) else (s, [])) with (s1, o1) in P by (unfold s1, o1; destruct (first_of b l); reflexivity).
  destruct (same_off _ _ S1) as (A & B & _).
  assert (C2 : (if passive b then cp_mode h MListen ;;> online h CMainEwrn late sw else rskip) s1 =
               if passive b then (if ok_mode h MListen then w_hw MListen s1 else s1, if ok_mode h MListen then [OMode MListen] else []) else (s1, [])).
  { destruct (passive b); [|reflexivity]. rewrite pre_second. rewrite B, NS, andb_false_r. reflexivity. }
  rewrite C2 in P. clear C2.
  assert (Q : (first_of b l = true -> accepts h -> r_mode s1 = MListen /\ r_hw s1 = MListen) /\
              (r_mode s1 = r_mode s \/ r_mode s1 = MListen) /\ (r_hw s1 = r_hw s \/ r_hw s1 = MStopped \/ r_hw s1 = MListen)).
  { unfold s1. destruct (first_of b l).
    - unfold sm_state. cbn [hw_of]. split; [intros _ [AC _]; rewrite !AC; split; reflexivity|]. destruct (ok_mode h MListen), (ok_mode h MStopped); cbn; auto.
    - split; [discriminate|]. auto. }
  clearbody s1 o1. destruct Q as (Q1 & Q2 & Q3). destruct (passive b).
  - injection P as <- <-. split; [eapply same_trans; [exact S1|apply w_listen_same]|]. split; [apply Forall_app; split; [exact M1|apply one_mode]|].
    split; [intros F AC; destruct (Q1 F AC); destruct (ok_mode h MListen); cbn; auto|]. destruct (ok_mode h MListen); cbn; auto.
  - injection P as <- <-. split; [exact S1|]. split; [rewrite app_nil_r; exact M1|]. split; [exact Q1|auto].
Qed.

Lemma off_w_hw m s : is_off (w_hw m s) = is_off s.
Proof. reflexivity. Qed.
(** not stopped: the search begins exactly with trouble *)
Lemma pre_begins h b l late sw s s' o :
  is_off s = true -> not_stopped s = true -> pre_part h b l late sw s = (s', o) ->
  (In OOnlineStart o <-> troubled b l = true) /\ (troubled b l = true -> is_off s' = false) /\ (troubled b l = false -> s' = s /\ o = []).
Proof.
  intros O NS P. rewrite pre_form in P by exact O. unfold rseq at 1 in P.
  assert (T : troubled b l = first_of b l || passive b) by (destruct b, l; reflexivity). rewrite T. clear T.
  destruct (first_of b l).
  - rewrite pre_first in P by exact O. cbv zeta in P. rewrite NS in P.
    match type of P with (let '(_, _) := ?x in _) = _ => destruct x as [s2 o2] eqn:P2 end. injection P as <- <-. cbn [orb].
    split; [split; [reflexivity|]|split; [|discriminate]].
    + intros _. apply in_app_iff. left. apply in_app_iff. right. left. reflexivity.
    + intros _. destruct (passive b); [|injection P2 as <- _; apply on_not_off].
      rewrite pre_second, on_not_off in P2. cbn [andb] in P2. injection P2 as <- _. destruct (ok_mode h MListen); [rewrite off_w_hw|]; apply on_not_off.
  - unfold rskip at 1 in P. cbn [orb]. destruct (passive b).
    + rewrite pre_second, O, NS in P. cbn [andb app] in P. injection P as <- <-. split; [split; [reflexivity|]|split; [|discriminate]].
      * intros _. apply in_app_iff. right. left. reflexivity.
      * intros _. apply on_not_off.
    + unfold rskip in P. injection P as <- <-. split; [split; [intros []|discriminate]|]. split; [discriminate|]. intros _. split; reflexivity.
Qed.

Lemma is_off_iff s : is_off s = true <-> r_state s = ROff.
Proof. unfold is_off. destruct (r_state s); split; congruence. Qed.
Lemma not_stopped_iff s : not_stopped s = true <-> r_ls s <> LStopped.
Proof. unfold not_stopped. destruct (r_ls s); split; congruence. Qed.

Lemma poll_parts chk mid h b l now late sw s s' o :
  poll chk mid h b l now late sw s = (s', o) ->
  exists s1 o1 o2, pre_part h b l late sw s = (s1, o1) /\ o = o1 ++ o2 /\ ~ In OOnlineStart o2 /\
    (is_off s1 = true -> s' = s1 /\ o2 = []).
Proof.
  intro P. unfold poll in P. fold (pre_part h b l late sw) in P. unfold rseq at 1 in P.
  destruct (pre_part h b l late sw s) as [s1 o1]. destruct (is_off s1) eqn:O1.
  - injection P as <- <-. exists s1, o1, []. repeat split; auto.
  - destruct mid; unfold rseq, rset, rskip in P;
    [destruct (process chk h (r_pend s1) l now late sw (w_pend PMsg s1)) as [s2 o2] eqn:P2|destruct (process chk h (r_pend s1) l now late sw s1) as [s2 o2] eqn:P2];
    injection P as <- <-; apply process_cases in P2; apply pcase_no_start in P2; exists s1, o1, o2; repeat split; auto; congruence.
Qed.

(** once the node is stopped and not operational, it stays so *)
Definition parked (s : rec) : Prop := r_state s = ROff /\ r_ls s = LStopped /\ r_mode s <> MOperational /\ r_hw s <> MOperational.
Definition poll_or_rx (e : rev) : Prop := match e with EPoll _ _ _ _ _ _ | ERx _ _ => True | _ => False end.
Lemma hw_of_not m : m <> MOperational -> hw_of m <> MOperational.
Proof. destruct m; cbn; congruence. Qed.
Lemma cp_keeps h m s : r_hw s <> MOperational -> m <> MOperational -> r_hw (fst (cp_mode h m s)) <> MOperational.
Proof. unfold cp_mode. destruct (ok_mode h m); auto. Qed.
Lemma parked_step g e s s' o : parked s -> poll_or_rx e -> rstep g e s = (s', o) -> parked s' /\ ~ In OOnlineStart o /\ ~ In (OMode MOperational) o.
Proof.
  intros (A & B & C & D) PR P. assert (O := A). apply is_off_iff in O. assert (NS : not_stopped s = false) by (unfold not_stopped; rewrite B; reflexivity).
  destruct e; try contradiction PR; cbn [rstep] in P.
  - apply poll_parts in P. destruct P as (s1 & o1 & o2 & P1 & -> & N2 & OF).
    destruct (pre_stopped _ _ _ _ _ _ _ _ O NS P1) as (SM & MO & _ & Q2 & Q3).
    destruct (same_off _ _ SM) as (X & _ & _). rewrite O in X. destruct (OF X) as [-> ->].
    assert (LS : r_ls s1 = r_ls s) by (rewrite SM; reflexivity).
    assert (MM : r_mode s1 <> MOperational) by (destruct Q2 as [E|E]; rewrite E; [exact C|discriminate]).
    assert (HM : r_hw s1 <> MOperational) by (destruct Q3 as [E|[E|E]]; rewrite E; [exact D|discriminate|discriminate]).
    rewrite app_nil_r. split; [|split; [apply modes_no_start; exact MO|]].
    + split; [apply is_off_iff; exact X|]. split; [congruence|auto].
    + (* observations of the handler of a stopped node *)
      clear OF N2 X LS MM HM Q2 Q3 SM MO. rewrite pre_form in P1 by exact O. unfold rseq at 1 in P1.
      destruct (first_of b l).
      * rewrite pre_first in P1 by exact O. cbv zeta in P1. rewrite NS in P1.
        destruct (same_off _ _ (two_same h s)) as (_ & B2 & _).
        destruct (passive b).
        -- rewrite pre_second, B2, NS, andb_false_r in P1. injection P1 as _ <-. unfold sm_obs. cbn [hw_of].
           destruct (ok_mode h MStopped), (ok_mode h MListen); cbn; intuition discriminate.
        -- unfold rskip in P1. injection P1 as _ <-. unfold sm_obs. cbn [hw_of]. destruct (ok_mode h MStopped), (ok_mode h MListen); cbn; intuition discriminate.
      * unfold rskip at 1 in P1. destruct (passive b).
        -- rewrite pre_second, NS, andb_false_r in P1. injection P1 as _ <-. destruct (ok_mode h MListen); cbn; intuition discriminate.
        -- unfold rskip in P1. injection P1 as _ <-. intros [].
  - unfold rx, rseq at 1, rset, rif in P. replace (is_off (w_pend PMsg s)) with (is_off s) in P by reflexivity. rewrite O in P.
    assert (H := hw_of_not _ C).
    destruct f as [r|].
    + unfold rseq at 1, robserve in P. unfold sys_baud, mode_ok, rseq, set_baud, baud_ok in P. rewrite sm_eq in P. unfold sm_state, sm_obs in P. cbn [hw_of r_mode w_pend] in P.
      destruct (ok_mode h MStopped).
      2: { unfold rskip in P. injection P as <- <-. split; [repeat split; cbn; auto; discriminate|]. cbn. intuition discriminate. }
      cbn [settable r_mode w_mode w_hw orb] in P. rewrite orb_true_r in P.
      destruct (known_rate r); [destruct (ok_rate h r)|]; rewrite sm_eq in P; unfold sm_state, sm_obs in P; cbn [r_mode w_mode w_hw w_cur w_rate w_pend] in P;
      destruct (ok_mode h (hw_of (r_mode s))); injection P as <- <-; (split; [repeat split; cbn; auto; discriminate|]); cbn; intuition congruence.
    + unfold rseq, robserve, rskip in P. injection P as <- <-. split; [repeat split; cbn; auto|]. cbn. intuition discriminate.
Qed.
Lemma parked_run g es : forall s, parked s -> Forall poll_or_rx es -> parked (rend g s es) /\ ~ In OOnlineStart (obs_of (rruns g s es)) /\ ~ In (OMode MOperational) (obs_of (rruns g s es)).
Proof.
  induction es as [|e es IH]; intros s K F; [cbn; auto|]. inversion F as [|x y F1 F2]; subst.
  unfold obs_of. cbn [rruns]. destruct (rstep g e s) as [s1 o] eqn:P. destruct (parked_step _ _ _ _ _ K F1 P) as (K1 & N1 & N2).
  destruct (IH s1 K1 F2) as (A & B & C). cbn [rend fold_left flat_map fst snd]. rewrite P. cbn [fst].
  split; [exact A|]. split; intro I; apply in_app_iff in I; destruct I as [I|I]; auto.
Qed.
