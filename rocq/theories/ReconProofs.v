(** Proofs about the search for the baud rate. *)
From Verif Require Import Words WordsFacts ReconModel ReconSpec.

Definition nb_idx (s : rec) : nat := if (r_idx s <? 3)%nat then S (r_idx s) else 0%nat.
Definition nb_rate (s : rec) : N := nth (nb_idx s) bdr_table 0.
Lemma nb_idx_le s : (nb_idx s <= 3)%nat.
Proof. unfold nb_idx. destruct (Nat.ltb_spec (r_idx s) 3); lia. Qed.
Lemma table_known i : (i <= 3)%nat -> known_rate (nth i bdr_table 0) = true.
Proof. intro H. destruct i as [|[|[|[|i]]]]; try reflexivity. lia. Qed.

(** closed form of a change to the next rate *)
Definition nb_state (h : hwo) (late sw : N) (s : rec) : rec :=
  Rec (r_state s) (r_cause s) (r_lec0 s) (r_time s) (nb_idx s) (r_idle s) (u32 (late + sw)) (nb_rate s) (r_proc s) (r_pend s)
      (r_ls s) MListen (nb_rate s) (r_startup s)
      (if ok_mode h MListen then MListen else if ok_mode h MStopped then MStopped else r_hw s)
      (if ok_rate h (nb_rate s) then nb_rate s else r_rate s).
Definition nb_obs (h : hwo) (s : rec) : list robs :=
  (if ok_mode h MStopped then [OMode MStopped] else []) ++ (if ok_rate h (nb_rate s) then [ORate (nb_rate s)] else []) ++
  OTry (nb_rate s) :: (if ok_mode h MListen then [OMode MListen] else []).
Lemma next_eq h late sw s : next_baudrate h late sw s = (nb_state h late sw s, nb_obs h s).
Proof.
  unfold next_baudrate, rseq, rset, set_mode, cp_mode, robserve, rif, rskip. cbn.
  assert (K := table_known (nb_idx s) (nb_idx_le s)). fold (nb_rate s) in K.
  destruct s; cbn in *. unfold nb_idx in *. cbn in *.
  destruct (ok_mode h MStopped) eqn:E1; cbn; unfold set_baud, baud_ok; fold (nb_rate (Rec r_state r_cause r_lec0 r_time r_idx r_idle r_next r_bdr r_proc r_pend r_ls r_mode r_cur r_startup r_hw r_rate)) in *;
  unfold nb_rate, nb_idx in *; cbn in *; rewrite K; cbn;
  (destruct (ok_rate h _) eqn:E2; cbn; destruct (ok_mode h MListen) eqn:E3; cbn;
   unfold nb_state, nb_obs, nb_rate, nb_idx; cbn; rewrite ?E1, ?E2, ?E3; reflexivity).
Qed.

(** closed form of the end of a search *)
Definition off_ls (c : rcause) : lstate := match c with CMainEwrn | CMainBoff => LRunning | _ => LInit end.
Definition off_cbk (c : rcause) (b : N) : list robs :=
  match c with CStartup | CNoTraffic => [OStartupStop b] | CMainEwrn | CMainBoff => [OOnlineStop b] | CDownload => [] end.
Definition off_state (h : hwo) (s : rec) : rec :=
  Rec ROff (r_cause s) (r_lec0 s) (r_time s) (r_idx s) (r_idle s) (r_next s) (r_bdr s) false (r_pend s)
      (if ok_mode h MOperational then off_ls (r_cause s) else r_ls s) MOperational
      (if known_rate (r_bdr s) then r_bdr s else r_cur s) (r_startup s)
      (if ok_mode h MOperational then MOperational else if ok_mode h MStopped then MStopped else r_hw s)
      (if known_rate (r_bdr s) && ok_rate h (r_bdr s) then r_bdr s else r_rate s).
Definition off_obs (h : hwo) (s : rec) : list robs :=
  (if ok_mode h MStopped then [OMode MStopped] else []) ++ (if known_rate (r_bdr s) && ok_rate h (r_bdr s) then [ORate (r_bdr s)] else []) ++
  (if ok_mode h MOperational then OMode MOperational :: off_cbk (r_cause s) (r_bdr s) else []).
Lemma off_eq h s : reconnect_off h s = (off_state h s, off_obs h s).
Proof.
  unfold reconnect_off, rseq, rset, set_mode, cp_mode, robserve, mode_ok. destruct s as [st ca l0 ti ix idl nx bd pr pe ls mo cu su hw ra]. cbn [hw_of r_bdr].
  unfold off_state, off_obs. cbn [r_state r_cause r_lec0 r_time r_idx r_idle r_next r_bdr r_proc r_pend r_ls r_mode r_cur r_startup r_hw r_rate].
  destruct (ok_mode h MStopped) eqn:E1; cbn; unfold set_baud, baud_ok; cbn;
  (destruct (known_rate bd) eqn:K; cbn; [destruct (ok_rate h bd) eqn:E2; cbn|]);
  destruct (ok_mode h MOperational) eqn:E3; cbn; try reflexivity;
  unfold off_end, rseq, rset, robserve; destruct ca; reflexivity.
Qed.

(** closed form of a mode change *)
Definition sm_state (h : hwo) (m : nmode) (s : rec) : rec := if ok_mode h (hw_of m) then w_hw (hw_of m) (w_mode m s) else w_mode m s.
Definition sm_obs (h : hwo) (m : nmode) : list robs := if ok_mode h (hw_of m) then [OMode (hw_of m)] else [].
Lemma sm_eq h m s : set_mode h m s = (sm_state h m s, sm_obs h m).
Proof. unfold set_mode, rseq, rset, cp_mode, sm_state, sm_obs. cbn. destruct (ok_mode h (hw_of m)); reflexivity. Qed.

(** closed form of the beginning of an online search *)
Definition on_state (h : hwo) (c : rcause) (late sw : N) (s : rec) : rec :=
  w_proc true (nb_state h late sw (w_lec0 0 (w_ls LReconnect (w_pend PLec (w_cause c (w_state ROn (sm_state h MListen (sm_state h MStopped s)))))))).
Definition on_obs (h : hwo) (s : rec) : list robs :=
  OOnlineStart :: sm_obs h MStopped ++ sm_obs h MListen ++ nb_obs h s.
Lemma nb_obs_eq h s s' : r_idx s = r_idx s' -> nb_obs h s = nb_obs h s'.
Proof. intro E. unfold nb_obs, nb_rate, nb_idx. rewrite E. reflexivity. Qed.
Lemma sm_idx h m s : r_idx (sm_state h m s) = r_idx s.
Proof. unfold sm_state. destruct (ok_mode _ _); reflexivity. Qed.
Lemma online_eq h c late sw s : is_off s = true -> not_stopped s = true -> online h c late sw s = (on_state h c late sw s, on_obs h s).
Proof.
  intros O L. unfold online, rif. rewrite O, L. cbn [andb].
  unfold rseq at 1. unfold robserve at 1. unfold rseq at 1. rewrite sm_eq. unfold rseq at 1. rewrite sm_eq.
  unfold reconnect_on, rseq, rset. rewrite next_eq. unfold on_state, on_obs. cbn [app]. rewrite !app_nil_r.
  f_equal. f_equal. f_equal. f_equal. apply nb_obs_eq. cbn. rewrite !sm_idx. reflexivity.
Qed.
Lemma online_skip h c late sw s : is_off s && not_stopped s = false -> online h c late sw s = (s, []).
Proof. intro E. unfold online, rif. rewrite E. reflexivity. Qed.

(** ** invariants for every outcome of the driver *)
Definition inv1 (s : rec) : Prop := (r_idx s <= 3)%nat /\ (searching s -> r_mode s = MListen).

Lemma inv1_off h s : inv1 s -> inv1 (off_state h s).
Proof. intros [A B]. split; [exact A|]. intros []. Qed.
Lemma inv1_nb h late sw s : inv1 (nb_state h late sw s).
Proof. split; [apply nb_idx_le|reflexivity]. Qed.
Lemma inv1_on h c late sw s : inv1 (on_state h c late sw s).
Proof. unfold on_state. split; [apply nb_idx_le|reflexivity]. Qed.

Lemma to_idle_eq h late sw s : to_idle h late sw s = (w_state RIdle (w_idle 0 (nb_state h late sw (w_lec0 0 s))), nb_obs h s).
Proof. unfold to_idle, rseq, rset. rewrite next_eq. cbn [app]. rewrite app_nil_r. reflexivity. Qed.

(** what one call of the search process can do *)
Inductive pcase (chk : bool) (h : hwo) (p : rpend) (l : lec) (now late sw : N) (s : rec) : rec -> list robs -> Prop :=
| PNothing :
    (r_proc s = true -> match r_state s with
                        | RStartup => p <> PMsg /\ now <= r_time s
                        | ROn => p = PLec /\ l = LecNone
                        | RIdle => False
                        | _ => True end) -> pcase chk h p l now late sw s s []
| PHeard : p = PMsg -> r_state s = RStartup -> pcase chk h p l now late sw s (off_state h (w_cause CStartup s)) (off_obs h (w_cause CStartup s))
| PTime : p <> PMsg -> r_state s = RStartup -> r_time s < now ->
    pcase chk h p l now late sw s (off_state h (w_bdr (r_startup s) (w_cause CNoTraffic s))) (off_obs h (w_bdr (r_startup s) (w_cause CNoTraffic s)))
| PToOn : p <> PMsg -> r_state s = RStartup -> p = PLec \/ chk = true /\ l <> LecNone ->
    pcase chk h p l now late sw s (w_proc true (nb_state h late sw (w_lec0 0 (w_ls LReconnect (w_state ROn (w_cause CStartup s)))))) (nb_obs h s)
| PNext : p <> PMsg -> r_state s = RStartup -> r_next s < now -> pcase chk h p l now late sw s (nb_state h late sw s) (nb_obs h s)
| POffMsg : p = PMsg -> r_state s = ROn -> pcase chk h p l now late sw s (off_state h s) (off_obs h s)
| POffNone : p = PNone -> l = LecNone -> r_state s = ROn -> pcase chk h p l now late sw s (off_state h s) (off_obs h s)
| PBit0 : p <> PMsg -> l = LecBit0 -> r_state s = ROn -> u16 (r_lec0 s + 1) < 10 -> pcase chk h p l now late sw s (w_lec0 (u16 (r_lec0 s + 1)) s) []
| PBit0Off : p <> PMsg -> l = LecBit0 -> r_state s = ROn -> 10 <= u16 (r_lec0 s + 1) ->
    pcase chk h p l now late sw s (off_state h (w_lec0 (u16 (r_lec0 s + 1)) s)) (off_obs h (w_lec0 (u16 (r_lec0 s + 1)) s))
| POther : p <> PMsg -> l <> LecNone -> l <> LecBit0 -> r_state s = ROn -> pcase chk h p l now late sw s (w_lec0 0 s) []
| PIdle : p <> PMsg -> r_state s = ROn -> r_next s < now ->
    pcase chk h p l now late sw s (w_state RIdle (w_idle 0 (nb_state h late sw (w_lec0 0 s)))) (nb_obs h s)
| PWait : r_state s = RIdle -> u16 (r_idle s + 1) <= 2 -> pcase chk h p l now late sw s (w_idle (u16 (r_idle s + 1)) s) []
| PBack : r_state s = RIdle -> 2 < u16 (r_idle s + 1) -> pcase chk h p l now late sw s (w_state ROn (w_idle (u16 (r_idle s + 1)) s)) [].
Lemma process_cases chk h p l now late sw s s' o : process chk h p l now late sw s = (s', o) -> pcase chk h p l now late sw s s' o.
Proof.
  intro P. unfold process in P. destruct (r_proc s) eqn:Pr; [|injection P as <- <-; apply PNothing; congruence].
  destruct (r_state s) eqn:St.
  - injection P as <- <-. apply PNothing. rewrite St. auto.
  - injection P as <- <-. apply PNothing. rewrite St. auto.
  - destruct p.
    2: { assert (NP : PLec <> PMsg) by discriminate. destruct (N.ltb_spec (r_time s) now).
      - unfold rseq, rset in P. rewrite off_eq in P. injection P as <- <-. apply PTime; assumption.
      - cbn [orb] in P. unfold reconnect_on, rseq, rset in P. rewrite next_eq in P. injection P as <- <-. cbn [app]. rewrite app_nil_r. rewrite (nb_obs_eq h _ s) by reflexivity. apply PToOn; auto. }
    2: { unfold rseq, rset in P. rewrite off_eq in P. injection P as <- <-. apply PHeard; auto. }
    assert (NP : PNone <> PMsg) by discriminate. destruct (N.ltb_spec (r_time s) now).
    + unfold rseq, rset in P. rewrite off_eq in P. injection P as <- <-. apply PTime; assumption.
    + cbn [orb] in P. destruct (chk && _) eqn:C.
      * unfold reconnect_on, rseq, rset in P. rewrite next_eq in P. injection P as <- <-. cbn [app]. rewrite app_nil_r. rewrite (nb_obs_eq h _ s) by reflexivity. apply PToOn; auto.
        right. apply andb_true_iff in C. destruct C as [C1 C2]. split; [exact C1|]. intros ->. discriminate.
      * destruct (N.ltb_spec (r_next s) now).
        -- rewrite next_eq in P. injection P as <- <-. apply PNext; auto.
        -- injection P as <- <-. apply PNothing. rewrite St. auto.
  - assert (BIT : p <> PMsg -> l = LecBit0 -> (rset (w_lec0 (u16 (r_lec0 s + 1))) ;;> rif (fun s => 10 <=? r_lec0 s) (reconnect_off h) rskip) s = (s', o) -> pcase chk h p l now late sw s s' o).
    { clear P. intros NP L P. unfold rseq, rset, rif, rskip in P. cbn [r_lec0 w_lec0] in P. destruct (N.leb_spec 10 (u16 (r_lec0 s + 1))).
      - rewrite off_eq in P. injection P as <- <-. apply PBit0Off; auto.
      - injection P as <- <-. apply PBit0; auto. }
    assert (OTH : p <> PMsg -> l <> LecNone -> l <> LecBit0 -> (rset (w_lec0 0) ;;> if r_next s <? now then to_idle h late sw else rskip) s = (s', o) -> pcase chk h p l now late sw s s' o).
    { clear P. intros NP L L2 P. unfold rseq, rset, rskip in P. destruct (N.ltb_spec (r_next s) now).
      - rewrite to_idle_eq in P. injection P as <- <-. cbn [app]. rewrite (nb_obs_eq h _ s) by reflexivity. change (w_lec0 0 (w_lec0 0 s)) with (w_lec0 0 s). apply PIdle; auto.
      - injection P as <- <-. apply POther; auto. }
    destruct p, l; try (apply BIT; [discriminate|reflexivity|exact P]); try (apply OTH; [discriminate|discriminate|discriminate|exact P]);
    try (rewrite off_eq in P; injection P as <- <-; apply POffMsg; [reflexivity|exact St]);
    try (rewrite off_eq in P; injection P as <- <-; apply POffNone; [reflexivity|reflexivity|exact St]).
    destruct (N.ltb_spec (r_next s) now); [|injection P as <- <-; apply PNothing; rewrite St; auto].
    rewrite to_idle_eq in P. injection P as <- <-. apply PIdle; [discriminate|exact St|assumption].
  - unfold rseq, rset, rif, rskip in P. cbn [r_idle w_idle] in P. destruct (N.ltb_spec 2 (u16 (r_idle s + 1))); injection P as <- <-; [apply PBack|apply PWait]; assumption.
Qed.

(** ** start, reception and the part of a poll that looks at the bus *)
Definition st_state (h : hwo) (late sw wait : N) (s : rec) : rec :=
  Rec RStartup CNoTraffic 0 (u32 (late + wait)) 0 (r_idle s) (u32 (late + sw)) (r_bdr s) true PNone
      (if ok_mode h MListen then LRunning else LReconnect) MListen
      (if known_rate (r_startup s) then r_startup s else r_cur s) (r_startup s)
      (if ok_mode h MListen then MListen else if ok_mode h MStopped then MStopped else r_hw s)
      (if known_rate (r_startup s) && ok_rate h (r_startup s) then r_startup s else r_rate s).
Definition st_obs (h : hwo) (s : rec) : list robs :=
  (if ok_mode h MStopped then [OMode MStopped] else []) ++
  (if known_rate (r_startup s) && ok_rate h (r_startup s) then [ORate (r_startup s)] else []) ++
  OStartupStart :: (if ok_mode h MListen then [OMode MListen] else []).
Definition dl_state (h : hwo) (s : rec) : rec :=
  Rec ROff CDownload (r_lec0 s) (r_time s) (r_idx s) (r_idle s) (r_next s) (r_bdr s) (r_proc s) (r_pend s)
      (if ok_mode h MOperational then LRunning else r_ls s) MOperational
      (if known_rate (r_startup s) then r_startup s else r_cur s) (r_startup s)
      (if ok_mode h MOperational then MOperational else if ok_mode h MStopped then MStopped else r_hw s)
      (if known_rate (r_startup s) && ok_rate h (r_startup s) then r_startup s else r_rate s).
Definition dl_obs (h : hwo) (s : rec) : list robs :=
  (if ok_mode h MStopped then [OMode MStopped] else []) ++
  (if known_rate (r_startup s) && ok_rate h (r_startup s) then [ORate (r_startup s)] else []) ++
  (if ok_mode h MOperational then [OMode MOperational] else []).
Lemma start_eq h late sw wait s :
  start h late sw wait s = match r_ls s with LDownload => (dl_state h s, dl_obs h s) | _ => (st_state h late sw wait s, st_obs h s) end.
Proof.
  unfold start. destruct (r_ls s) eqn:LS.
  all: unfold rseq, rset, rskip; rewrite ?sm_eq; unfold sm_state, sm_obs, dl_state, dl_obs, st_state, st_obs, mode_ok, set_baud; cbn [hw_of];
    destruct (ok_mode h MStopped) eqn:E1; destruct (known_rate (r_startup s)) eqn:K; cbn [settable r_mode w_mode w_hw w_state];
    destruct (ok_rate h (r_startup s)) eqn:E2; cbn [andb app]; unfold startup, reconnect_on, rif, rseq, rset, rskip, robserve;
    cbn [r_state w_state w_mode w_hw w_cur w_rate]; rewrite ?sm_eq; unfold sm_state, sm_obs; cbn [hw_of];
    destruct (ok_mode h MListen) eqn:E3; destruct (ok_mode h MOperational) eqn:E4; destruct s; cbn in LS; subst; reflexivity.
Qed.

(** equal but for the mode *)
Definition modes_only (o : list robs) : Prop := Forall (fun x => match x with OMode _ => True | _ => False end) o.
Definition same_m (s s' : rec) : Prop := s' = w_mode (r_mode s') (w_hw (r_hw s') s).
(** equal but for mode and rate *)
Definition same_r (s s' : rec) : Prop := s' = w_rate (r_rate s') (w_cur (r_cur s') (w_mode (r_mode s') (w_hw (r_hw s') s))).

Inductive pre (h : hwo) (b : buss) (l : lec) (late sw : N) (s : rec) : rec -> list robs -> Prop :=
| QNone : pre h b l late sw s s []
| QModes s' o : is_off s = true -> same_m s s' -> modes_only o -> pre h b l late sw s s' o
| QOn c s1 o1 o2 : is_off s = true -> c = CMainEwrn \/ c = CMainBoff -> same_m s s1 -> modes_only o1 -> modes_only o2 ->
    pre h b l late sw s (on_state h c late sw s1) (o1 ++ on_obs h s ++ o2).

Lemma sm_same h m s : same_m s (sm_state h m s).
Proof. unfold same_m, sm_state. destruct (ok_mode _ _); destruct s; reflexivity. Qed.
Lemma same_trans a b c : same_m a b -> same_m b c -> same_m a c.
Proof. unfold same_m. intros A B. rewrite B, A. destruct a; reflexivity. Qed.
Lemma sm_modes h m : modes_only (sm_obs h m).
Proof. unfold modes_only, sm_obs. destruct (ok_mode _ _); repeat constructor. Qed.
Lemma same_off a b : same_m a b -> is_off b = is_off a /\ not_stopped b = not_stopped a /\ r_idx b = r_idx a.
Proof. intros ->. destruct a; repeat split. Qed.
Lemma on_obs_eq h s s' : r_idx s = r_idx s' -> on_obs h s = on_obs h s'.
Proof. intro E. unfold on_obs. rewrite (nb_obs_eq h s s' E). reflexivity. Qed.
Lemma on_not_off h c late sw s : is_off (on_state h c late sw s) = false.
Proof. unfold on_state, is_off. cbn. unfold sm_state. destruct (ok_mode h (hw_of MListen)), (ok_mode h (hw_of MStopped)); reflexivity. Qed.
Lemma on_hw h c late sw s : ok_mode h MListen = true -> w_hw MListen (on_state h c late sw s) = on_state h c late sw s.
Proof. intro E. unfold on_state, nb_state, w_hw, w_proc. cbn. rewrite E. reflexivity. Qed.

Definition pre_part (h : hwo) (b : buss) (l : lec) (late sw : N) : RM :=
  match b, l with
   | BActive, LecNone => rskip
   | _, _ =>
       rif is_off
         ((if match b, l with BOff, _ => true | _, LecNone => false | _, _ => true end
           then set_mode h MStopped ;;> set_mode h MListen ;;> online h CMainBoff late sw else rskip) ;;>
          (match b with BPassive => cp_mode h MListen ;;> online h CMainEwrn late sw | _ => rskip end))
         rskip
   end.
Lemma pre_first h late sw s :
  is_off s = true ->
  (set_mode h MStopped ;;> set_mode h MListen ;;> online h CMainBoff late sw) s =
  let s1 := sm_state h MListen (sm_state h MStopped s) in
  let o1 := sm_obs h MStopped ++ sm_obs h MListen in
  if not_stopped s then (on_state h CMainBoff late sw s1, o1 ++ on_obs h s) else (s1, o1).
Proof.
  intro O. unfold rseq. rewrite !sm_eq. cbv zeta.
  assert (SM : same_m s (sm_state h MListen (sm_state h MStopped s))) by (eapply same_trans; apply sm_same).
  destruct (same_off _ _ SM) as (A & B & C). destruct (not_stopped s) eqn:NS.
  - rewrite online_eq by congruence. rewrite app_assoc. rewrite (on_obs_eq h _ s C). reflexivity.
  - rewrite online_skip by (rewrite B; apply andb_false_r). rewrite app_nil_r. reflexivity.
Qed.
Lemma pre_second h late sw s :
  (cp_mode h MListen ;;> online h CMainEwrn late sw) s =
  let s1 := if ok_mode h MListen then w_hw MListen s else s in
  let o1 := if ok_mode h MListen then [OMode MListen] else [] in
  if is_off s && not_stopped s then (on_state h CMainEwrn late sw s1, o1 ++ on_obs h s) else (s1, o1).
Proof.
  unfold rseq, cp_mode. cbv zeta. destruct (ok_mode h MListen).
  - destruct (is_off s && not_stopped s) eqn:O.
    + apply andb_true_iff in O. destruct O as [O N]. rewrite online_eq by (destruct s; assumption). rewrite (on_obs_eq h _ s) by reflexivity. reflexivity.
    + rewrite online_skip by (destruct s; exact O). reflexivity.
  - destruct (is_off s && not_stopped s) eqn:O.
    + apply andb_true_iff in O. destruct O as [O N]. rewrite online_eq by assumption. reflexivity.
    + rewrite online_skip by exact O. reflexivity.
Qed.
Lemma w_hw_same m s : same_m s (w_hw m s).
Proof. destruct s; reflexivity. Qed.
Lemma pre_cases h b l late sw s s' o : pre_part h b l late sw s = (s', o) -> pre h b l late sw s s' o.
Proof.
  intro P.
  assert (F : forall (x y : bool), (rif is_off ((if x then set_mode h MStopped ;;> set_mode h MListen ;;> online h CMainBoff late sw else rskip) ;;>
              (if y then cp_mode h MListen ;;> online h CMainEwrn late sw else rskip)) rskip s = (s', o)) -> pre h b l late sw s s' o).
  { clear P. intros x y P. unfold rif in P. destruct (is_off s) eqn:O; [|injection P as <- <-; constructor].
    set (F1 := if x then _ else _) in P. set (F2 := if y then _ else _) in P. unfold rseq in P.
    assert (M1 : modes_only (sm_obs h MStopped ++ sm_obs h MListen)) by (apply Forall_app; split; apply sm_modes).
    assert (M2 : modes_only (if ok_mode h MListen then [OMode MListen] else [])) by (destruct (ok_mode h MListen); repeat constructor).
    assert (SM : same_m s (sm_state h MListen (sm_state h MStopped s))) by (eapply same_trans; apply sm_same).
    destruct x.
    - unfold F1 in P. rewrite (pre_first h late sw s O) in P. cbv zeta in P. destruct (not_stopped s) eqn:NS.
      + destruct y; unfold F2 in P.
        * rewrite pre_second in P. rewrite on_not_off in P. cbn [andb] in P. cbv zeta in P.
          destruct (ok_mode h MListen) eqn:EL.
          -- rewrite on_hw in P by exact EL. injection P as <- <-. rewrite <- app_assoc. apply QOn; auto.
          -- injection P as <- <-. rewrite <- app_assoc. apply QOn; auto.
        * unfold rskip in P. injection P as <- <-. rewrite <- app_assoc. apply QOn; auto. constructor.
      + destruct y; unfold F2 in P.
        * rewrite pre_second in P. destruct (same_off _ _ SM) as (A & B & C). rewrite B, NS, andb_false_r in P. cbv zeta in P. injection P as <- <-.
          apply QModes; [exact O| |apply Forall_app; split; assumption].
          eapply same_trans; [exact SM|]. destruct (ok_mode h MListen); [apply w_hw_same|]. destruct (sm_state h MListen (sm_state h MStopped s)); reflexivity.
        * unfold rskip in P. injection P as <- <-. rewrite app_nil_r. apply QModes; auto.
    - unfold F1 in P. unfold rskip at 1 in P. destruct y; unfold F2 in P; [|injection P as <- <-; constructor].
      rewrite pre_second in P. rewrite O in P. cbn [andb] in P. cbv zeta in P.
      assert (SM2 : same_m s (if ok_mode h MListen then w_hw MListen s else s)) by (destruct (ok_mode h MListen); [apply w_hw_same|destruct s; reflexivity]).
      destruct (not_stopped s) eqn:NS.
      + injection P as <- <-. cbn [app]. rewrite <- (app_nil_r (on_obs h s)). apply QOn; auto. constructor.
      + injection P as <- <-. apply QModes; auto. }
  unfold pre_part in P. destruct b, l; try (injection P as <- <-; constructor);
  first [exact (F true true P)|exact (F true false P)|exact (F false true P)|exact (F false false P)].
Qed.
Lemma poll_cases chk mid h b l now late sw s s' o :
  poll chk mid h b l now late sw s = (s', o) ->
  exists s1 o1 o2, pre h b l late sw s s1 o1 /\ o = o1 ++ o2 /\
    ((is_off s1 = true /\ s' = s1 /\ o2 = []) \/
     (is_off s1 = false /\ pcase chk h (r_pend s1) l now late sw (if mid then w_pend PMsg s1 else s1) s' o2)).
Proof.
  intro P. unfold poll in P. fold (pre_part h b l late sw) in P. unfold rseq at 1 in P.
  destruct (pre_part h b l late sw s) as [s1 o1] eqn:P1. apply pre_cases in P1.
  destruct (is_off s1) eqn:O1.
  - injection P as <- <-. exists s1, o1, []. repeat split; auto.
  - destruct mid; unfold rseq, rset, rskip in P;
    [destruct (process chk h (r_pend s1) l now late sw (w_pend PMsg s1)) as [s2 o2] eqn:P2|destruct (process chk h (r_pend s1) l now late sw s1) as [s2 o2] eqn:P2];
    injection P as <- <-; apply process_cases in P2; exists s1, o1, o2; repeat split; auto.
Qed.
Lemma rx_cases h f s s' o :
  rx h f s = (s', o) ->
  (is_off s = false /\ s' = w_pend PMsg s /\ o = []) \/
  (is_off s = true /\ same_r (w_pend PMsg s) s' /\
   (o = [OProcessed] \/ exists r, f = FBaud r /\ exists o', o = OProcessed :: o' /\
      Forall (fun x => match x with OMode _ | ORate _ => True | _ => False end) o' /\
      (accepts h -> s' = (if known_rate r then w_rate r (w_cur r (w_hw (hw_of (r_mode s)) (w_pend PMsg s))) else w_hw (hw_of (r_mode s)) (w_pend PMsg s)) /\
                    o' = OMode MStopped :: (if known_rate r then [ORate r] else []) ++ [OMode (hw_of (r_mode s))]))).
Proof.
  intro P. unfold rx in P. unfold rseq at 1, rset, rif in P. assert (O : is_off (w_pend PMsg s) = is_off s) by reflexivity. rewrite O in P.
  destruct (is_off s); [|injection P as <- <-; left; auto]. right. split; [reflexivity|].
  unfold rseq at 1, robserve, rskip in P. destruct f as [r|]; [|injection P as <- <-; split; [destruct s; reflexivity|left; reflexivity]].
  unfold sys_baud, mode_ok, rseq, set_baud, baud_ok in P. rewrite sm_eq in P. unfold sm_state, sm_obs in P. cbn [hw_of r_mode w_pend] in P.
  destruct (ok_mode h MStopped) eqn:E1.
  2: { injection P as <- <-. split; [destruct s; reflexivity|]. right. exists r. split; [reflexivity|]. exists []. split; [reflexivity|split; [constructor|]].
    intros [A _]. rewrite A in E1. discriminate. }
  cbn [settable r_mode w_mode w_hw orb] in P. rewrite orb_true_r in P.
  destruct (known_rate r) eqn:K; [destruct (ok_rate h r) eqn:E2|]; rewrite sm_eq in P; unfold sm_state, sm_obs in P; cbn [r_mode w_mode w_hw w_cur w_rate w_pend] in P;
  destruct (ok_mode h (hw_of (r_mode s))) eqn:E3; injection P as <- <-; cbn [app];
  (split; [destruct s; reflexivity|right; exists r; split; [reflexivity|]; eexists; split; [reflexivity|split; [repeat first [apply Forall_nil|apply Forall_cons; [exact I|]]|]]]);
  intros [A B]; try (rewrite A in E3; discriminate); try (rewrite B in E2; discriminate); rewrite K; destruct s; split; reflexivity.
Qed.
