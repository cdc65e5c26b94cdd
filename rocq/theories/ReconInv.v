(** Invariants of the histories of the search for the baud rate. *)
From Verif Require Import Words WordsFacts ReconModel ReconSpec ReconProofs.

Lemma hist_ind (g : rcfg) (Q : rev -> Prop) (P : list rev -> list (rev * list robs * rec) -> rec -> Prop) :
  P [] [] rec_zero ->
  (forall es tr s e s' o, P es tr s -> Q e -> rstep g e s = (s', o) -> P (es ++ [e]) (tr ++ [(e, o, s')]) s') ->
  forall es, Forall Q es -> P es (rruns g rec_zero es) (rend g rec_zero es).
Proof.
  intros P0 PS.
  assert (G : forall es es0 tr0 s, P es0 tr0 s -> Forall Q es -> P (es0 ++ es) (tr0 ++ rruns g s es) (rend g s es)).
  { induction es as [|e es IH]; intros es0 tr0 s H F; cbn [rruns rend fold_left].
    - rewrite !app_nil_r. exact H.
    - inversion F as [|? ? Fe Fr]; subst. destruct (rstep g e s) as [s1 o] eqn:E. cbn [fst].
      specialize (IH (es0 ++ [e]) (tr0 ++ [(e, o, s1)]) s1 (PS _ _ _ _ _ _ H Fe E) Fr). rewrite <- !app_assoc in IH. exact IH. }
  intros es F. exact (G es [] [] rec_zero P0 F).
Qed.
Lemma obs_snoc tr x : obs_of (tr ++ [x]) = obs_of tr ++ snd (fst x).
Proof. unfold obs_of. rewrite flat_map_app. cbn. rewrite app_nil_r. reflexivity. Qed.
Lemma rend_snoc g s es e : rend g s (es ++ [e]) = fst (rstep g e (rend g s es)).
Proof. unfold rend. rewrite fold_left_app. reflexivity. Qed.
Lemma rend_app g s a b : rend g s (a ++ b) = rend g (rend g s a) b.
Proof. unfold rend. apply fold_left_app. Qed.
Lemma rruns_app g s a b : rruns g s (a ++ b) = rruns g s a ++ rruns g (rend g s a) b.
Proof.
  revert s. induction a as [|e a IH]; intro s; [reflexivity|]. cbn [app rruns rend fold_left]. destruct (rstep g e s) as [s1 o] eqn:E. cbn [fst app].
  rewrite IH. reflexivity.
Qed.

(** folds of the observations *)
Fixpoint cyc_end (cur : N) (l : list robs) : N :=
  match l with [] => cur | OStartupStart :: t => cyc_end 125 t | OTry r :: t => cyc_end r t | _ :: t => cyc_end cur t end.
Lemma cyclic_app a b cur : cyclic cur (a ++ b) <-> cyclic cur a /\ cyclic (cyc_end cur a) b.
Proof. revert cur. induction a as [|x a IH]; intro cur; cbn; [tauto|]. destruct x; cbn; rewrite ?IH; tauto. Qed.
Lemma cyc_end_app a b cur : cyc_end cur (a ++ b) = cyc_end (cyc_end cur a) b.
Proof. revert cur. induction a as [|x a IH]; intro cur; cbn; [reflexivity|]. destruct x; cbn; apply IH. Qed.
Fixpoint mode_end (m : nmode) (l : list robs) : nmode := match l with [] => m | OMode x :: t => mode_end x t | _ :: t => mode_end m t end.
Lemma stopped_app a b m : stopped_changes m (a ++ b) <-> stopped_changes m a /\ stopped_changes (mode_end m a) b.
Proof. revert m. induction a as [|x a IH]; intro m; cbn; [tauto|]. destruct x; cbn; rewrite ?IH; tauto. Qed.
Lemma mode_end_app a b m : mode_end m (a ++ b) = mode_end (mode_end m a) b.
Proof. revert m. induction a as [|x a IH]; intro m; cbn; [reflexivity|]. destruct x; cbn; apply IH. Qed.
Lemma tried_app a b t : tried t (a ++ b) = tried (tried t a) b.
Proof. revert t. induction a as [|x a IH]; intro t; cbn; [reflexivity|]. destruct x; cbn; apply IH. Qed.
Lemma searches_app a b : searches (a ++ b) = (searches a + searches b)%nat.
Proof. unfold searches. rewrite filter_app, app_length. reflexivity. Qed.
Lemma tries_app a b : tries (a ++ b) = tries a || tries b.
Proof. apply existsb_app. Qed.

(** observations that neither try a rate nor begin a search *)
Definition quiet (o : list robs) : Prop := Forall (fun x => match x with OTry _ | OStartupStart | OOnlineStart => False | _ => True end) o.
Lemma quiet_facts o : quiet o -> (forall c, cyclic c o /\ cyc_end c o = c) /\ (forall t, tried t o = t) /\ searches o = 0%nat /\ tries o = false.
Proof.
  induction 1 as [|x o Hx _ IH]; [repeat split|]. destruct IH as (A & B & C & D).
  destruct x; try contradiction; (split; [exact A|split; [exact B|split; [exact C|exact D]]]).
Qed.
Lemma modes_quiet o : modes_only o -> quiet o.
Proof. apply Forall_impl. intros []; tauto. Qed.
Ltac fone := repeat first [apply Forall_nil | apply Forall_cons; [exact I|]].
Lemma off_quiet h s : quiet (off_obs h s).
Proof. unfold off_obs, quiet. rewrite !Forall_app. repeat split; [destruct (ok_mode _ _)|destruct (_ && _)|destruct (ok_mode _ _); [destruct (r_cause s)|]]; fone. Qed.
Lemma dl_quiet h s : quiet (dl_obs h s).
Proof. unfold dl_obs, quiet. rewrite !Forall_app. repeat split; [destruct (ok_mode _ _)|destruct (_ && _)|destruct (ok_mode _ _)]; fone. Qed.

Lemma nb_next s : (r_idx s <= 3)%nat -> nb_rate s = next_rate (nth (r_idx s) bdr_table 0).
Proof. intro H. unfold nb_rate, nb_idx. destruct (r_idx s) as [|[|[|[|i]]]]; try reflexivity. lia. Qed.
Lemma nb_facts h s :
  (r_idx s <= 3)%nat ->
  cyclic (nth (r_idx s) bdr_table 0) (nb_obs h s) /\ (forall c, cyc_end c (nb_obs h s) = nb_rate s) /\ (forall t, tried t (nb_obs h s) = true) /\ searches (nb_obs h s) = 0%nat /\ tries (nb_obs h s) = true.
Proof.
  intro H. unfold nb_obs. destruct (ok_mode h MStopped), (ok_rate h (nb_rate s)), (ok_mode h MListen); cbn; repeat split; apply nb_next; exact H.
Qed.
Lemma on_facts h s :
  (r_idx s <= 3)%nat ->
  cyclic (nth (r_idx s) bdr_table 0) (on_obs h s) /\ (forall c, cyc_end c (on_obs h s) = nb_rate s) /\ (forall t, tried t (on_obs h s) = true) /\ searches (on_obs h s) = 1%nat /\ tries (on_obs h s) = true.
Proof.
  intro H. destruct (nb_facts h s H) as (A & B & C & D & E). unfold on_obs.
  destruct (quiet_facts (sm_obs h MStopped) (modes_quiet _ (sm_modes _ _))) as (QA & QB & QC & QD).
  destruct (quiet_facts (sm_obs h MListen) (modes_quiet _ (sm_modes _ _))) as (RA & RB & RC & RD).
  cbn [cyclic cyc_end tried]. rewrite !cyclic_app. repeat split.
  - apply QA.
  - rewrite (proj2 (QA _)). apply RA.
  - rewrite (proj2 (QA _)), (proj2 (RA _)). exact A.
  - intro c. rewrite !cyc_end_app. apply B.
  - intro t. rewrite !tried_app. apply C.
  - unfold searches. cbn [filter length]. f_equal. fold (searches (sm_obs h MStopped ++ sm_obs h MListen ++ nb_obs h s)). rewrite !searches_app, QC, RC, D. reflexivity.
  - unfold tries. cbn [existsb]. fold (tries (sm_obs h MStopped ++ sm_obs h MListen ++ nb_obs h s)). rewrite !tries_app, QD, RD, E. reflexivity.
Qed.
Lemma st_facts h s :
  (forall c, cyclic c (st_obs h s) /\ cyc_end c (st_obs h s) = 125) /\ (forall t, tried t (st_obs h s) = false) /\ searches (st_obs h s) = 1%nat.
Proof. unfold st_obs. destruct (ok_mode h MStopped), (_ && _), (ok_mode h MListen); cbn; repeat split. Qed.

(** what one event can do *)
Inductive scase (g : rcfg) (s : rec) : rev -> rec -> list robs -> Prop :=
| SInit b d : scase g s (EInit b d) (if d then w_ls LDownload (w_startup b s) else w_startup b s) []
| SDownload h late : r_ls s = LDownload -> scase g s (EStart h late) (dl_state h s) (dl_obs h s)
| SStart h late : r_ls s <> LDownload -> scase g s (EStart h late) (st_state h late (g_sw g) (g_wait g) s) (st_obs h s)
| SSet x : scase g s (ESetState x) (w_ls x s) []
| SRxS h f : is_off s = false -> scase g s (ERx h f) (w_pend PMsg s) []
| SRx h f s' o : is_off s = true -> same_r (w_pend PMsg s) s' -> quiet o -> rx h f s = (s', o) -> scase g s (ERx h f) s' o
| SPollOff mid h b l now late s' o : is_off s = true -> same_m s s' -> modes_only o -> scase g s (EPoll mid h b l now late) s' o
| SPollOn (mid : bool) h b l now late c s1 s' o1 o2 o3 :
    is_off s = true -> c = CMainEwrn \/ c = CMainBoff -> same_m s s1 -> modes_only o1 -> modes_only o2 ->
    pcase (g_chk g) h PLec l now late (g_sw g) (if mid then w_pend PMsg (on_state h c late (g_sw g) s1) else on_state h c late (g_sw g) s1) s' o3 ->
    scase g s (EPoll mid h b l now late) s' (o1 ++ on_obs h s ++ o2 ++ o3)
| SPoll (mid : bool) h b l now late s' o :
    is_off s = false -> pcase (g_chk g) h (r_pend s) l now late (g_sw g) (if mid then w_pend PMsg s else s) s' o ->
    scase g s (EPoll mid h b l now late) s' o.
Lemma step_cases g e s s' o : rstep g e s = (s', o) -> scase g s e s' o.
Proof.
  intro P. destruct e as [b d|h late|mid h b l now late|h f|x]; cbn [rstep] in P.
  - unfold rseq, rset, rskip in P. destruct d; injection P as <- <-; apply (SInit g s b true) || apply (SInit g s b false).
  - rewrite start_eq in P. destruct (r_ls s) eqn:L; injection P as <- <-; first [apply SDownload; exact L|apply SStart; rewrite L; discriminate].
  - apply poll_cases in P. destruct P as (s1 & o1 & o2 & P1 & -> & P2). inversion P1 as [E1 E2|s'' o'' O SM MO|c s2 oa ob O C SM MA MB E1 E2]; subst.
    + destruct P2 as [(O & -> & ->)|(O & P2)].
      * cbn. apply SPollOff; [exact O| |constructor]. match goal with |- same_m ?x ?x => destruct x; reflexivity end.
      * cbn [app]. apply SPoll; assumption.
    + destruct P2 as [(O2 & -> & ->)|(O2 & P2)].
      * rewrite app_nil_r. apply SPollOff; assumption.
      * destruct (same_off _ _ SM) as (A & _). congruence.
    + destruct P2 as [(O2 & -> & ->)|(O2 & P2)].
      * rewrite on_not_off in O2. discriminate.
      * rewrite <- !app_assoc. eapply SPollOn; eauto.
  - assert (P' := P). apply rx_cases in P. destruct P as [(O & -> & ->)|(O & SR & [->|(r & -> & o' & -> & Q & _)])].
    + apply SRxS. exact O.
    + apply SRx; auto. fone.
    + apply SRx; auto. apply Forall_cons; [exact I|]. revert Q. apply Forall_impl. intros []; tauto.
  - injection P as <- <-. constructor.
Qed.

(** ** modes and rates, for every outcome of the driver *)
Definition invA (s : rec) (o : list robs) : Prop :=
  (r_idx s <= 3)%nat /\ (searching s -> r_mode s = MListen) /\ cyclic 125 o /\ cyc_end 125 o = nth (r_idx s) bdr_table 0.

Lemma invA_quiet s s' o o' : invA s o -> quiet o' -> r_idx s' = r_idx s -> (searching s' -> r_mode s' = MListen) -> invA s' (o ++ o').
Proof.
  intros (A & B & C & D) Q I M. destruct (quiet_facts o' Q) as (QA & _). unfold invA. rewrite I, cyclic_app, cyc_end_app, D.
  repeat split; auto; apply QA.
Qed.
Lemma invA_nb h late sw s s' o : invA s o -> r_idx s' = r_idx s -> invA (nb_state h late sw s') (o ++ nb_obs h s').
Proof.
  intros (A & B & C & D) I. assert (A' : (r_idx s' <= 3)%nat) by (rewrite I; exact A). destruct (nb_facts h s' A') as (NA & NB & _).
  unfold invA. rewrite cyclic_app, cyc_end_app, D, NB, <- I. repeat split; auto; try (apply nb_idx_le); exact NA.
Qed.
Lemma invA_same s s' o : invA s o -> r_idx s' = r_idx s -> (searching s' -> r_mode s' = MListen) -> invA s' o.
Proof. intros H I M. rewrite <- (app_nil_r o). apply invA_quiet with (s := s); auto. constructor. Qed.
Lemma invA_pend p s o : invA s o -> invA (w_pend p s) o.
Proof. intro H. exact H. Qed.
Lemma invA_pcase chk h p l now late sw s s' o o' :
  pcase chk h p l now late sw s s' o' -> invA s o -> invA s' (o ++ o').
Proof.
  intros P H. assert (M := proj1 (proj2 H)).
  assert (SR : r_state s = RStartup -> r_mode s = MListen) by (intro E; apply M; unfold searching; rewrite E; exact I).
  assert (SN : r_state s = ROn -> r_mode s = MListen) by (intro E; apply M; unfold searching; rewrite E; exact I).
  assert (SI : r_state s = RIdle -> r_mode s = MListen) by (intro E; apply M; unfold searching; rewrite E; exact I).
  destruct P; rewrite ?app_nil_r;
  try (apply invA_quiet with (s := s); [exact H|apply off_quiet|reflexivity|intros []]);
  try (apply invA_same with (s := s); [exact H|reflexivity|cbn; intros; auto]); auto.
  - apply (invA_same (nb_state h late sw (w_lec0 0 (w_ls LReconnect (w_state ROn (w_cause CStartup s))))) _ _); [|reflexivity|reflexivity].
    rewrite (nb_obs_eq h s (w_lec0 0 (w_ls LReconnect (w_state ROn (w_cause CStartup s))))) by reflexivity. apply invA_nb with (s := s); [exact H|reflexivity].
  - apply invA_nb with (s := s); auto.
  - apply (invA_same (nb_state h late sw (w_lec0 0 s)) _ _); [|reflexivity|reflexivity].
    rewrite (nb_obs_eq h s (w_lec0 0 s)) by reflexivity. apply invA_nb with (s := s); [exact H|reflexivity].
Qed.
Lemma not_off_search s : searching s -> is_off s = false.
Proof. unfold searching, is_off. destruct (r_state s); auto; contradiction. Qed.
Lemma off_not s : is_off s = true -> ~ searching s.
Proof. unfold searching, is_off. destruct (r_state s); auto; discriminate. Qed.
Lemma invA_on h c late sw s s1 o o1 o2 :
  invA s o -> same_m s s1 -> modes_only o1 -> modes_only o2 -> invA (on_state h c late sw s1) (o ++ o1 ++ on_obs h s ++ o2).
Proof.
  intros H SM M1 M2. destruct (same_off _ _ SM) as (_ & _ & I). destruct H as (A & B & C & D).
  destruct (on_facts h s A) as (OA & OB & _).
  destruct (quiet_facts o1 (modes_quiet _ M1)) as (QA & _). destruct (quiet_facts o2 (modes_quiet _ M2)) as (RA & _).
  assert (IX : r_idx (on_state h c late sw s1) = nb_idx s).
  { unfold on_state, nb_state, w_proc. cbn [r_idx]. unfold nb_idx. cbn [r_idx w_lec0 w_ls w_pend w_cause w_state]. rewrite !sm_idx, I. reflexivity. }
  unfold invA. rewrite IX, !cyclic_app, !cyc_end_app, (proj2 (QA _)), (proj2 (RA _)), D, OB.
  split; [apply nb_idx_le|]. split; [reflexivity|]. split; [|reflexivity]. split; [exact C|]. split; [apply QA|]. split; [exact OA|apply RA].
Qed.
Lemma invA_step g e s s' o o' : rstep g e s = (s', o') -> invA s o -> invA s' (o ++ o').
Proof.
  intros P H. apply step_cases in P. assert (M := proj1 (proj2 H)). destruct P.
  - rewrite app_nil_r. destruct d; apply invA_same with (s := s); auto.
  - apply invA_quiet with (s := s); auto; [apply dl_quiet|intros []].
  - destruct H as (A & B & C & D). destruct (st_facts h s) as (SA & _). unfold invA. rewrite cyclic_app, cyc_end_app, (proj2 (SA _)). repeat split; auto; apply SA || (cbn; lia).
  - rewrite app_nil_r. apply invA_same with (s := s); auto.
  - rewrite app_nil_r. apply invA_same with (s := s); auto.
  - apply invA_quiet with (s := s); auto; [rewrite H1; reflexivity|]. intro S. exfalso. apply (off_not s H0). rewrite H1 in S. exact S.
  - apply invA_quiet with (s := s); auto; [apply modes_quiet; assumption|rewrite H1; reflexivity|]. intro S. exfalso. apply (off_not s H0). rewrite H1 in S. exact S.
  - assert (K := invA_on h c late (g_sw g) s s1 o o1 o2 H H2 H3 H4).
    assert (K2 : invA (if mid then w_pend PMsg (on_state h c late (g_sw g) s1) else on_state h c late (g_sw g) s1) (o ++ o1 ++ on_obs h s ++ o2)).
    { destruct mid; [|exact K]. apply invA_pend. exact K. }
    assert (K3 := invA_pcase _ _ _ _ _ _ _ _ _ _ _ H5 K2). rewrite <- !app_assoc in K3. exact K3.
  - apply (invA_pcase _ _ _ _ _ _ _ _ _ _ _ H1). destruct mid; [apply invA_pend|]; exact H.
Qed.
Lemma invA_all g es : invA (rend g rec_zero es) (obs_of (rruns g rec_zero es)).
Proof.
  apply (hist_ind g (fun _ => True) (fun _ tr s => invA s (obs_of tr))).
  - unfold invA. cbn. repeat split; lia.
  - intros es0 tr s e s' o H _ P. rewrite obs_snoc. cbn [fst snd]. exact (invA_step _ _ _ _ _ _ P H).
  - apply Forall_forall. auto.
Qed.

(** ** a driver that accepts everything *)
Definition invH (s : rec) (o : list robs) : Prop :=
  (searching s -> r_hw s = MListen) /\
  (forall m, stopped_changes m o) /\
  (searching s -> tried false o = true -> r_bdr s = r_rate s /\ r_cur s = r_rate s) /\
  ((searches o <= 1)%nat -> searching s -> tried false o = false -> r_bdr s = 0) /\
  (searches o = 0%nat -> ~ searching s /\ r_bdr s = 0).
Definition sc (o : list robs) : Prop := forall m, stopped_changes m o.
Lemma sc_app a b : sc a -> sc b -> sc (a ++ b).
Proof. intros A B m. apply stopped_app. split; [apply A|apply B]. Qed.
Lemma sc_modes o : modes_only o -> sc o.
Proof. induction 1 as [|x o Hx _ IH]; intro m; [exact I|]. destruct x; try contradiction. apply IH. Qed.
Lemma sc_nb h s : accepts h -> sc (nb_obs h s).
Proof. intros [A B] m. unfold nb_obs. rewrite !A, B. cbn. repeat split. Qed.
Lemma sc_off h s : accepts h -> sc (off_obs h s).
Proof. intros [A B] m. unfold off_obs. rewrite !A, B. destruct (known_rate (r_bdr s)); destruct (r_cause s); cbn; repeat split. Qed.
Lemma sc_on h s : accepts h -> sc (on_obs h s).
Proof. intros A. unfold on_obs. intro m. cbn [stopped_changes]. apply sc_app; [apply sc_modes, sm_modes|]. apply sc_app; [apply sc_modes, sm_modes|]. apply sc_nb, A. Qed.
Lemma sc_st h s : accepts h -> sc (st_obs h s).
Proof. intros [A B] m. unfold st_obs. rewrite !A, B. destruct (known_rate (r_startup s)); cbn; repeat split. Qed.
Lemma sc_dl h s : accepts h -> sc (dl_obs h s).
Proof. intros [A B] m. unfold dl_obs. rewrite !A, B. destruct (known_rate (r_startup s)); cbn; repeat split. Qed.
Lemma sc_rx h f s s' o : accepts h -> rx h f s = (s', o) -> sc o.
Proof.
  intros A P m. apply rx_cases in P. destruct P as [(_ & _ & ->)|(_ & _ & [->|(r & -> & o' & -> & _ & K)])]; cbn; auto.
  destruct (K A) as [_ ->]. cbn. destruct (known_rate r); cbn; repeat split.
Qed.

(** nothing but fields the invariant does not mention *)
Lemma invH_keep s s' o o' :
  invH s o -> quiet o' -> sc o' -> (searching s' -> searching s) -> (searching s' -> r_hw s' = r_hw s /\ r_rate s' = r_rate s /\ r_cur s' = r_cur s) -> r_bdr s' = r_bdr s -> invH s' (o ++ o').
Proof.
  intros (A & B & C & D & E) Q S K1 K2 K3. destruct (quiet_facts o' Q) as (_ & QB & QC & _). unfold invH. rewrite tried_app, QB, searches_app, QC, K3. rewrite Nat.add_0_r.
  split; [|split; [|split; [|split]]].
  - intro X. rewrite (proj1 (K2 X)). auto.
  - apply sc_app; assumption.
  - intros X T. destruct (K2 X) as (_ & -> & ->). auto.
  - intros N X T. auto.
  - intro N. destruct (E N) as [E1 E2]. split; [|exact E2]. intro X. apply E1, K1, X.
Qed.
Lemma invH_over s s' o o' : invH s o -> searching s -> sc o' -> ~ searching s' -> invH s' (o ++ o').
Proof.
  intros (A & B & C & D & E) X S K. unfold invH. split; [|split; [|split; [|split]]]; try (intros; contradiction).
  - apply sc_app; assumption.
  - rewrite searches_app. intro N. assert (N0 : searches o = 0%nat) by lia. destruct (E N0) as [E1 _]. contradiction.
Qed.
Lemma invH_try s s' o o' :
  invH s o -> (searching s \/ (1 <= searches o')%nat) -> sc o' -> r_hw s' = MListen -> r_bdr s' = r_rate s' -> r_cur s' = r_rate s' -> (forall t, tried t o' = true) -> invH s' (o ++ o').
Proof.
  intros (A & B & C & D & E) X S H1 H2 H3 T. unfold invH. rewrite tried_app, T, searches_app. split; [|split; [|split; [|split]]]; auto.
  - apply sc_app; assumption.
  - intros; discriminate.
  - intro N. exfalso. destruct X as [X|X]; [|lia]. assert (N0 : searches o = 0%nat) by lia. destruct (E N0) as [E1 _]. contradiction.
Qed.
Lemma sc_nil : sc [].
Proof. intro m. exact I. Qed.
Lemma nb_acc h late sw s : accepts h -> r_hw (nb_state h late sw s) = MListen /\ r_rate (nb_state h late sw s) = nb_rate s.
Proof. intros [A B]. unfold nb_state. cbn. rewrite A, B. auto. Qed.
Lemma invH_pcase chk h p l now late sw s s' o o' :
  accepts h -> (r_idx s <= 3)%nat -> pcase chk h p l now late sw s s' o' -> invH s o -> invH s' (o ++ o').
Proof.
  intros AC I3 P H.
  assert (SR : r_state s = RStartup -> searching s) by (intro E; unfold searching; rewrite E; exact I).
  assert (SN : r_state s = ROn -> searching s) by (intro E; unfold searching; rewrite E; exact I).
  assert (SI : r_state s = RIdle -> searching s) by (intro E; unfold searching; rewrite E; exact I).
  assert (OFF : forall x, searching s -> invH (off_state h x) (o ++ off_obs h x)).
  { intros x X. apply invH_over with (s := s); [exact H|exact X|apply sc_off; exact AC|intros []]. }
  assert (KEEP : forall x, (searching x -> searching s) -> r_hw x = r_hw s -> r_rate x = r_rate s -> r_cur x = r_cur s -> r_bdr x = r_bdr s -> invH x (o ++ [])).
  { intros. apply invH_keep with (s := s); auto; try constructor; try exact sc_nil. }
  destruct (nb_facts h s I3) as (_ & _ & T & _).
  assert (TRY : forall x, searching s -> r_hw x = MListen -> r_bdr x = r_rate x -> r_cur x = r_rate x -> invH x (o ++ nb_obs h s)).
  { intros. apply invH_try with (s := s); auto. apply sc_nb; exact AC. }
  destruct P; try (apply OFF; auto; fail); try (apply KEEP; auto; fail).
  - apply TRY; auto; cbn; destruct AC as [A B]; rewrite ?A, ?B; reflexivity.
  - apply TRY; auto; cbn; destruct AC as [A B]; rewrite ?A, ?B; reflexivity.
  - apply TRY; auto; cbn; destruct AC as [A B]; rewrite ?A, ?B; reflexivity.
Qed.
Lemma on_acc h c late sw s : accepts h ->
  r_hw (on_state h c late sw s) = MListen /\ r_bdr (on_state h c late sw s) = r_rate (on_state h c late sw s) /\ r_cur (on_state h c late sw s) = r_rate (on_state h c late sw s).
Proof. intros [A B]. unfold on_state, w_proc. cbn [r_hw r_bdr r_rate r_cur nb_state]. rewrite A, B. auto. Qed.
Lemma invH_pend p s o : invH s o -> invH (w_pend p s) o.
Proof. intro H. exact H. Qed.
Lemma invH_step g e s s' o o' : ev_accepts e -> rstep g e s = (s', o') -> invA s o -> invH s o -> invH s' (o ++ o').
Proof.
  intros AC P IA H. assert (P0 := P). apply step_cases in P. destruct P; cbn [ev_accepts] in AC.
  - destruct d; apply invH_keep with (s := s); auto; try constructor; exact sc_nil.
  - destruct H as (A & B & C & D & E). unfold invH. destruct (quiet_facts _ (dl_quiet h s)) as (_ & QB & QC & _).
    rewrite tried_app, QB, searches_app, QC, Nat.add_0_r. split; [intros []|]. split; [apply sc_app; [exact B|apply sc_dl; exact AC]|].
    split; [intros []|]. split; [intros _ []|]. intro N. destruct (E N) as [_ E2]. split; [intros []|exact E2].
  - destruct H as (A & B & C & D & E). destruct (st_facts h s) as (_ & T & N). unfold invH. rewrite tried_app, T, searches_app, N.
    destruct AC as [AA AB]. split; [intros _; cbn; rewrite AA; reflexivity|]. split; [apply sc_app; [exact B|apply sc_st; split; assumption]|].
    split; [discriminate|]. split; [|intros; lia]. intros N1 _ _. assert (N0 : searches o = 0%nat) by lia. exact (proj2 (E N0)).
  - apply invH_keep with (s := s); auto; try constructor; exact sc_nil.
  - apply invH_keep with (s := s); auto; try constructor; exact sc_nil.
  - apply invH_keep with (s := s); auto; [exact (sc_rx _ _ _ _ _ AC H3)|rewrite H1; exact (fun x => x)| |rewrite H1; reflexivity].
    intro S. exfalso. apply (off_not s H0). rewrite H1 in S. exact S.
  - apply invH_keep with (s := s); auto; [apply modes_quiet; assumption|apply sc_modes; assumption|rewrite H1; exact (fun x => x)| |rewrite H1; reflexivity].
    intro S. exfalso. apply (off_not s H0). rewrite H1 in S. exact S.
  - assert (IA2 := invA_on h c late (g_sw g) s s1 o o1 o2 IA H2 H3 H4).
    destruct (on_facts h s (proj1 IA)) as (_ & _ & T & N & _).
    destruct (on_acc h c late (g_sw g) s1 AC) as (A1 & A2 & A3).
    assert (K : invH (on_state h c late (g_sw g) s1) (o ++ o1 ++ on_obs h s ++ o2)).
    { apply invH_try with (s := s); auto.
      - right. rewrite !searches_app, N. lia.
      - apply sc_app; [apply sc_modes; assumption|]. apply sc_app; [apply sc_on; exact AC|apply sc_modes; assumption].
      - intro t. rewrite !tried_app, T. apply (quiet_facts o2). apply modes_quiet; assumption. }
    revert H5 IA2 K. generalize (on_state h c late (g_sw g) s1). intros x H5 IA2 K.
    assert (K3 : invH s' ((o ++ o1 ++ on_obs h s ++ o2) ++ o3)).
    { refine (invH_pcase _ _ _ _ _ _ _ _ _ _ _ AC _ H5 _); destruct mid; first [exact (proj1 IA2)|exact K]. }
    rewrite <- !app_assoc in K3. exact K3.
  - refine (invH_pcase _ _ _ _ _ _ _ _ _ _ _ AC _ H1 _); destruct mid; first [exact (proj1 IA)|exact H].
Qed.
Lemma invH_all g es : Forall ev_accepts es -> invH (rend g rec_zero es) (obs_of (rruns g rec_zero es)).
Proof.
  intro F. refine (proj2 (hist_ind g ev_accepts (fun _ tr s => invA s (obs_of tr) /\ invH s (obs_of tr)) _ _ es F)).
  - split; [unfold invA; cbn; repeat split; lia|]. unfold invH. cbn. repeat split; auto; intros; try discriminate; try contradiction.
  - intros es0 tr s e s' o [HA HH] Q P. rewrite obs_snoc. cbn [fst snd]. split; [exact (invA_step _ _ _ _ _ _ P HA)|exact (invH_step _ _ _ _ _ _ Q P HA HH)].
Qed.

(** the process runs during a search *)
Lemma proc_pcase chk h p l now late sw s s' o : pcase chk h p l now late sw s s' o -> (searching s -> r_proc s = true) -> searching s' -> r_proc s' = true.
Proof.
  intros P H X.
  assert (SR : r_state s = RStartup -> r_proc s = true) by (intro E; apply H; unfold searching; rewrite E; exact I).
  assert (SN : r_state s = ROn -> r_proc s = true) by (intro E; apply H; unfold searching; rewrite E; exact I).
  assert (SI : r_state s = RIdle -> r_proc s = true) by (intro E; apply H; unfold searching; rewrite E; exact I).
  destruct P; try contradiction X; cbn; auto.
Qed.
Lemma proc_step g e s s' o : rstep g e s = (s', o) -> (searching s -> r_proc s = true) -> searching s' -> r_proc s' = true.
Proof.
  intros P H. apply step_cases in P. destruct P.
  - destruct d; exact H.
  - intros [].
  - reflexivity.
  - exact H.
  - exact H.
  - rewrite H1. exact H.
  - rewrite H1. exact H.
  - apply (proc_pcase _ _ _ _ _ _ _ _ _ _ H5). intros _. destruct mid; reflexivity.
  - apply (proc_pcase _ _ _ _ _ _ _ _ _ _ H1). destruct mid; exact H.
Qed.
Lemma proc_all g es : searching (rend g rec_zero es) -> r_proc (rend g rec_zero es) = true.
Proof.
  apply (hist_ind g (fun _ => True) (fun _ _ s => searching s -> r_proc s = true)).
  - intros [].
  - intros es0 tr s e s' o H _ P. exact (proc_step _ _ _ _ _ P H).
  - apply Forall_forall. auto.
Qed.

(** ** what was heard *)
Definition invP (g : rcfg) (es : list rev) (tr : list (rev * list robs * rec)) (s : rec) : Prop :=
  (searching s -> r_proc s = true) /\
  (r_idx s <= 3)%nat /\
  last (map (fun x => r_state (snd x)) tr) ROff = r_state s /\
  (searching s -> r_pend s = PMsg -> fst (act_of ROff act_zero tr) = true) /\
  (r_state s = ROn \/ r_state s = RIdle -> r_pend s <> PNone /\ r_lec0 s <= snd (act_of ROff act_zero tr)) /\
  (r_state s = RStartup -> exists t0, last_start None es = Some t0 /\ r_time s = u32 (t0 + g_wait g)).
Lemma act_of_snoc tr : forall st a x, act_of st a (tr ++ [x]) = act_step (last (map (fun y => r_state (snd y)) tr) st) (act_of st a tr) x.
Proof.
  induction tr as [|y tr IH]; intros st a x; [reflexivity|]. cbn [app act_of]. rewrite IH. f_equal.
  cbn [map]. destruct tr as [|z tr]; [reflexivity|]. cbn [map]. clear. revert z. induction tr as [|w tr IH]; intro z; [reflexivity|]. cbn [map last]. cbn in IH. apply (IH w).
Qed.
Lemma last_start_snoc es t e : last_start t (es ++ [e]) = match e with EStart _ late => Some late | _ => last_start t es end.
Proof. revert t. induction es as [|x es IH]; intro t; cbn [app last_start]; [destruct e; reflexivity|]. destruct x; apply IH. Qed.
Lemma last_snoc {A} (l : list A) x d : last (l ++ [x]) d = x.
Proof. induction l as [|y l IH]; [reflexivity|]. cbn [app]. destruct (l ++ [x]) eqn:E; [destruct l; discriminate|]. exact IH. Qed.
Lemma u16_le x : u16 x <= x.
Proof. unfold u16. apply N.mod_le. discriminate. Qed.

Lemma invP_step g es tr s e s' o :
  g_chk g = false -> ev_atomic e -> rstep g e s = (s', o) -> invP g es tr s -> invP g (es ++ [e]) (tr ++ [(e, o, s')]) s'.
Proof.
  intros CH AT P0 (HP & HI & HL & HM & HN & HS).
  assert (IDX : (r_idx s' <= 3)%nat).
  { assert (P := P0). apply step_cases in P. clear -P HI.
    assert (G : forall chk h p l now late sw x y o, pcase chk h p l now late sw x y o -> (r_idx x <= 3)%nat -> (r_idx y <= 3)%nat).
    { intros chk h p l now late sw x y o' Q B. destruct Q; cbn; try exact B; apply nb_idx_le. }
    destruct P; try exact HI; try (rewrite H0; exact HI).
    - destruct d; exact HI.
    - cbn. lia.
    - apply (G _ _ _ _ _ _ _ _ _ _ H4). destruct mid; apply nb_idx_le.
    - apply (G _ _ _ _ _ _ _ _ _ _ H0). destruct mid; exact HI. }
  assert (HP' := proc_step _ _ _ _ _ P0 HP).
  unfold invP. rewrite act_of_snoc, HL. rewrite map_app. cbn [map]. rewrite last_snoc. cbn [snd]. rewrite last_start_snoc.
  split; [exact HP'|]. split; [exact IDX|]. split; [reflexivity|].
  destruct (act_of ROff act_zero tr) as [heard n] eqn:EA. cbn [fst snd] in HM, HN.
  apply step_cases in P0. destruct P0; cbn [act_step].
  - destruct d; cbn; auto.
  - split; [intros []|]. split; [intros [X|X]; discriminate X|discriminate].
  - split; [intros _ X; discriminate X|]. split; [intros [X|X]; discriminate X|]. intros _. exists late. split; reflexivity.
  - cbn. auto.
  - cbn. split; [auto|]. split; [|auto]. intro X. split; [discriminate|]. apply HN. exact X.
  - assert (NS : ~ searching s') by (rewrite H0; exact (off_not s H)). assert (ST : r_state s' = ROff) by (rewrite H0; cbn; unfold is_off in H; destruct (r_state s); congruence).
    split; [intro; contradiction|]. rewrite ST. split; [intros [X|X]; discriminate X|discriminate].
  - assert (NS : ~ searching s') by (rewrite H0; exact (off_not s H)). assert (ST : r_state s' = ROff) by (rewrite H0; cbn; unfold is_off in H; destruct (r_state s); congruence).
    split; [intro; contradiction|]. rewrite ST. split; [intros [X|X]; discriminate X|discriminate].
  - cbn [ev_atomic] in AT. subst mid. assert (ST : r_state s = ROff) by (unfold is_off in H; destruct (r_state s); congruence).
    rewrite !tries_app. destruct (on_facts h s HI) as (_ & _ & _ & _ & ->). rewrite orb_true_l, orb_true_r, ST.
    assert (OS : r_state (on_state h c late (g_sw g) s1) = ROn) by reflexivity.
    assert (OP : r_pend (on_state h c late (g_sw g) s1) = PLec) by reflexivity.
    assert (OL : r_lec0 (on_state h c late (g_sw g) s1) = 0) by reflexivity.
    revert H4 OS OP OL. generalize (on_state h c late (g_sw g) s1). intros x H4 OS OP OL.
    destruct H4; try congruence; try (cbn; split; [intros []|split; [intros [X|X]; discriminate X|discriminate]]).
    + cbn. split; [congruence|]. split; [|congruence]. intros _. rewrite OP, OL. split; [discriminate|apply N.le_0_l].
    + cbn. rewrite OP, OL. subst l. split; [congruence|]. split; [|congruence]. intros _. split; [discriminate|]. exact (u16_le (0 + 1)).
    + cbn. rewrite OP. split; [congruence|]. split; [|congruence]. intros _. split; [discriminate|apply N.le_0_l].
    + cbn. rewrite OP. split; [congruence|]. split; [|congruence]. intros _. split; [discriminate|apply N.le_0_l].
  - cbn [ev_atomic] in AT. subst mid.
    assert (SR : r_state s = RStartup -> searching s) by (intro E; unfold searching; rewrite E; exact I).
    assert (SN : r_state s = ROn -> searching s) by (intro E; unfold searching; rewrite E; exact I).
    assert (SI : r_state s = RIdle -> searching s) by (intro E; unfold searching; rewrite E; exact I).
    assert (NB := nb_facts h s HI). destruct NB as (_ & _ & _ & _ & NB). rewrite CH in H0.
    destruct H0; try (cbn; split; [intros []|split; [intros [X|X]; discriminate X|discriminate]]).
    + cbn [tries existsb]. split.
      * intros X1 X2. specialize (HM X1 X2). destruct (r_state s); exact HM.
      * split; [|exact HS]. intro X. destruct (HN X) as [N1 N2]. split; [exact N1|].
        destruct (r_state s) eqn:St; try exact N2. specialize (H0 (HP (SN eq_refl))). destruct H0 as [_ ->]. exact N2.
    + rewrite NB. cbn. split; [congruence|]. split; [|discriminate]. intros _. split; [|lia].
      destruct H2 as [->|[X _]]; discriminate.
    + rewrite NB. cbn. rewrite H1. split; [congruence|]. split; [intros [X|X]; discriminate X|]. intros _. exact (HS H1).
    + cbn. rewrite H2. subst l. cbn. split; [congruence|]. split; [|congruence]. intros _. destruct (HN (or_introl H2)) as [N1 N2]. split; [exact N1|].
      assert (U := u16_le (r_lec0 s + 1)). lia.
    + cbn. rewrite H3. cbn. split; [congruence|]. split; [|congruence]. intros _. destruct (HN (or_introl H3)) as [N1 N2]. split; [exact N1|]. apply N.le_0_l.
    + rewrite NB. cbn. split; [congruence|]. split; [|discriminate]. intros _. split; [|lia]. exact (proj1 (HN (or_introl H1))).
    + cbn. rewrite H0. split; [intros _ X; apply HM; auto|]. split; [|discriminate]. intros _. apply HN. auto.
    + cbn. rewrite H0. split; [intros _ X; apply HM; auto|]. split; [|discriminate]. intros _. apply HN. auto.
Qed.
Lemma invP_all g es : g_chk g = false -> Forall ev_atomic es -> invP g es (rruns g rec_zero es) (rend g rec_zero es).
Proof.
  intros CH F. apply (hist_ind g ev_atomic (invP g)); [|intros; eapply invP_step; eauto|exact F].
  unfold invP. cbn. split; [intros []|]. split; [lia|]. split; [reflexivity|]. split; [intros []|]. split; [intros [X|X]; discriminate X|discriminate].
Qed.

(** ** the rate tried last *)
Lemma lt_app a b r : last_tried r (a ++ b) = last_tried (last_tried r a) b.
Proof. revert r. induction a as [|x a IH]; intro r; cbn; [reflexivity|]. destruct x; cbn; apply IH. Qed.
Lemma lt_quiet o : quiet o -> forall r, last_tried r o = r.
Proof. induction 1 as [|x o Hx _ IH]; intro r; [reflexivity|]. destruct x; try contradiction; apply IH. Qed.
Lemma lt_nb h s r : last_tried r (nb_obs h s) = Some (nb_rate s).
Proof. unfold nb_obs. destruct (ok_mode h MStopped), (ok_rate h (nb_rate s)), (ok_mode h MListen); reflexivity. Qed.
Lemma lt_on h s r : last_tried r (on_obs h s) = Some (nb_rate s).
Proof. unfold on_obs. cbn [last_tried]. rewrite !lt_app. apply lt_nb. Qed.
Lemma lt_st h s r : last_tried r (st_obs h s) = None.
Proof. unfold st_obs. destruct (ok_mode h MStopped), (_ && _), (ok_mode h MListen); reflexivity. Qed.
Lemma lt_tried o : forall r b, (b = true <-> r <> None) -> (tried b o = true <-> last_tried r o <> None).
Proof.
  induction o as [|x o IH]; intros r b H; cbn; [exact H|]. destruct x; try (apply IH; exact H); apply IH; split; intros; congruence.
Qed.
Definition invT (s : rec) (o : list robs) : Prop := searching s -> forall r, last_tried None o = Some r -> r_bdr s = r.
Lemma invT_pcase chk h p l now late sw s s' o o' : pcase chk h p l now late sw s s' o' -> invT s o -> invT s' (o ++ o').
Proof.
  intros P H.
  assert (SR : r_state s = RStartup -> searching s) by (intro E; unfold searching; rewrite E; exact I).
  assert (SN : r_state s = ROn -> searching s) by (intro E; unfold searching; rewrite E; exact I).
  assert (SI : r_state s = RIdle -> searching s) by (intro E; unfold searching; rewrite E; exact I).
  destruct P; intros X r; rewrite ?app_nil_r; try contradiction X; try (rewrite lt_app, lt_nb; intro E; injection E as <-; reflexivity); auto.
Qed.
Lemma invT_step g e s s' o o' : rstep g e s = (s', o') -> invT s o -> invT s' (o ++ o').
Proof.
  intros P H. apply step_cases in P. destruct P.
  - rewrite app_nil_r. destruct d; exact H.
  - intros [].
  - intros _ r. rewrite lt_app, lt_st. discriminate.
  - rewrite app_nil_r. exact H.
  - rewrite app_nil_r. exact H.
  - intro X. exfalso. apply (off_not s H0). rewrite H1 in X. exact X.
  - intro X. exfalso. apply (off_not s H0). rewrite H1 in X. exact X.
  - assert (K : invT (on_state h c late (g_sw g) s1) (o ++ o1 ++ on_obs h s ++ o2)).
    { intros _ r. rewrite !lt_app, lt_on. rewrite (lt_quiet o2) by (apply modes_quiet; assumption). intro E. injection E as <-.
      unfold on_state, w_proc. cbn [r_bdr nb_state]. unfold nb_rate, nb_idx. cbn [r_idx w_lec0 w_ls w_pend w_cause w_state]. rewrite !sm_idx.
      rewrite (proj2 (proj2 (same_off _ _ H2))). reflexivity. }
    assert (K3 : invT s' ((o ++ o1 ++ on_obs h s ++ o2) ++ o3)).
    { apply (invT_pcase _ _ _ _ _ _ _ _ _ _ _ H5). revert K. generalize (on_state h c late (g_sw g) s1). intros x K. destruct mid; exact K. }
    rewrite <- !app_assoc in K3. exact K3.
  - apply (invT_pcase _ _ _ _ _ _ _ _ _ _ _ H1). destruct mid; exact H.
Qed.
Lemma invT_all g es : invT (rend g rec_zero es) (obs_of (rruns g rec_zero es)).
Proof.
  apply (hist_ind g (fun _ => True) (fun _ tr s => invT s (obs_of tr))).
  - intros [].
  - intros es0 tr s e s' o H _ P. rewrite obs_snoc. cbn [fst snd]. exact (invT_step _ _ _ _ _ _ P H).
  - apply Forall_forall. auto.
Qed.

(** the idle counter *)
Definition invI (s : rec) : Prop := r_state s = RIdle -> r_idle s <= 2.
Lemma invI_pcase chk h p l now late sw s s' o : pcase chk h p l now late sw s s' o -> invI s -> invI s'.
Proof. unfold invI. intros P H. destruct P; cbn; intros; try discriminate; try congruence; auto; apply N.le_0_l. Qed.
Lemma invI_step g e s s' o : rstep g e s = (s', o) -> invI s -> invI s'.
Proof.
  intros P H. apply step_cases in P. destruct P; try exact H; try (rewrite H1; exact H); try discriminate.
  - destruct d; exact H.
  - apply (invI_pcase _ _ _ _ _ _ _ _ _ _ H5). destruct mid; discriminate.
  - apply (invI_pcase _ _ _ _ _ _ _ _ _ _ H1). destruct mid; exact H.
Qed.
Lemma invI_all g es : invI (rend g rec_zero es).
Proof.
  apply (hist_ind g (fun _ => True) (fun _ _ s => invI s)).
  - discriminate.
  - intros es0 tr s e s' o H _ P. exact (invI_step _ _ _ _ _ P H).
  - apply Forall_forall. auto.
Qed.

(** ** after a frame was received in a search *)
Definition waiting (R : N) (s : rec) : Prop :=
  searching s /\ r_pend s = PMsg /\ r_proc s = true /\ r_rate s = R /\ (r_bdr s = R \/ r_bdr s = 0).
Definition ended (R : N) (s : rec) : Prop := ~ searching s /\ r_rate s = R /\ r_hw s = MOperational /\ r_mode s = MOperational.
Lemma off_ended h R s : accepts h -> r_rate s = R -> r_bdr s = R \/ r_bdr s = 0 -> ended R (off_state h s).
Proof.
  intros [A B] E1 E2. unfold ended, off_state. cbn. rewrite A, B. split; [intros []|]. split; [|split; reflexivity].
  rewrite andb_true_r. destruct E2 as [->| ->]; [destruct (known_rate R); auto|]. cbn. exact E1.
Qed.
Lemma wait_step g e R s s' o :
  ev_accepts e -> ev_atomic e -> not_start e -> rstep g e s = (s', o) -> waiting R s -> waiting R s' \/ ended R s'.
Proof.
  intros AC AT NS P (W1 & W2 & W3 & W4 & W5). assert (OF := not_off_search s W1). apply step_cases in P.
  destruct P; try contradiction NS; cbn [ev_accepts ev_atomic] in AC, AT; try congruence.
  - left. destruct d; repeat split; auto.
  - left. repeat split; auto.
  - left. repeat split; auto.
  - subst mid. rewrite W2 in H0. destruct H0; try congruence.
    + specialize (H0 W3). left. unfold searching in W1. destruct (r_state s); try contradiction; destruct H0; congruence.
    + right. apply off_ended; auto.
    + right. apply off_ended; auto.
    + left. repeat split; auto.
    + left. repeat split; auto.
Qed.
Lemma wait_run g R es : forall s,
  Forall ev_accepts es -> Forall ev_atomic es -> Forall not_start es -> search_lasts g s es -> waiting R s ->
  waiting R (rend g s es) \/ ended R (rend g s es).
Proof.
  induction es as [|e es IH]; intros s A B C L W; [left; exact W|].
  inversion A; inversion B; inversion C; subst. cbn [rend fold_left].
  destruct (rstep g e s) as [s1 o] eqn:E. cbn [fst].
  assert (W1 := wait_step g e R s s1 o H1 H5 H9 E W).
  destruct es as [|e2 es]; [exact W1|].
  assert (S1 : searching s1). { specialize (L 1%nat). cbn in L. rewrite E in L. apply L. lia. }
  destruct W1 as [W1|[W1 _]]; [|contradiction]. apply IH; auto.
  intros n Hn. specialize (L (S n)). cbn [firstn] in L. cbn [rend fold_left] in L. rewrite E in L. apply L. cbn [length] in *. lia.
Qed.
Definition polls_left (s : rec) : N := match r_state s with RIdle => 4 - r_idle s | _ => 1 end.
Lemma wait_poll g e R s s' o :
  ev_accepts e -> ev_atomic e -> is_poll e -> rstep g e s = (s', o) -> waiting R s -> invI s -> (waiting R s' /\ polls_left s' < polls_left s) \/ ended R s'.
Proof.
  intros AC AT IP P W IV. assert (NS : not_start e) by (destruct e; auto; contradiction).
  destruct (wait_step g e R s s' o AC AT NS P W) as [W'|E]; [left|right; exact E]. split; [exact W'|].
  destruct W as (W1 & W2 & W3 & W4 & W5). assert (OF := not_off_search s W1). apply step_cases in P.
  destruct P; try contradiction IP; cbn [ev_atomic] in AT; try congruence.
  subst mid. rewrite W2 in H0. destruct W' as (W1' & _). destruct H0; try congruence; try contradiction W1'; try (destruct (H0 eq_refl)).
  - specialize (H0 W3). unfold searching in W1. destruct (r_state s); try contradiction; destruct H0; congruence.
  - specialize (IV H0). unfold polls_left. cbn. rewrite H0. assert (U : u16 (r_idle s + 1) = r_idle s + 1) by (apply N.mod_small; lia). rewrite U in *. lia.
  - specialize (IV H0). unfold polls_left. cbn. rewrite H0. lia.
Qed.
Lemma wait_polls g R es : forall s,
  Forall ev_accepts es -> Forall ev_atomic es -> Forall is_poll es -> waiting R s -> invI s -> polls_left s <= N.of_nat (length es) ->
  exists n, (n <= length es)%nat /\ ended R (rend g s (firstn n es)).
Proof.
  induction es as [|e es IH]; intros s A B C W IV L.
  - exfalso. cbn in L. unfold polls_left in L. specialize (IV). unfold invI in IV. destruct (r_state s); try lia.
  - inversion A; inversion B; inversion C; subst. destruct (rstep g e s) as [s1 o] eqn:E.
    destruct (wait_poll g e R s s1 o H1 H5 H9 E W IV) as [[W1 D]|E1].
    + destruct (IH s1) as (n & Hn & K); auto; [exact (invI_step _ _ _ _ _ E IV)|cbn [length] in L; lia|].
      exists (S n). split; [cbn; lia|]. cbn [firstn rend fold_left]. rewrite E. exact K.
    + exists 1%nat. split; [cbn; lia|]. cbn [firstn rend fold_left]. rewrite E. destruct es; exact E1.
Qed.

Lemma lt_cyc o : forall c r x, r = None \/ r = Some c -> last_tried r o = Some x -> cyc_end c o = x.
Proof.
  induction o as [|y o IH]; intros c r x H L; cbn in *; [destruct H; congruence|].
  destruct y; try (apply (IH c r x H L)); try (apply (IH _ None x (or_introl eq_refl) L)).
  apply (IH _ (Some r0) x (or_intror eq_refl) L).
Qed.
Lemma bdr_known g es r : searching (rend g rec_zero es) -> last_tried None (obs_of (rruns g rec_zero es)) = Some r -> r_bdr (rend g rec_zero es) = r /\ known_rate r = true.
Proof.
  intros X T. split; [exact (invT_all g es X r T)|]. destruct (invA_all g es) as (A & _ & _ & D).
  rewrite (lt_cyc _ 125 None r (or_introl eq_refl) T) in D. rewrite D. apply table_known. exact A.
Qed.
Definition invC (s : rec) : Prop := searching s -> r_cause s <> CDownload.
Lemma invC_pcase chk h p l now late sw s s' o : pcase chk h p l now late sw s s' o -> invC s -> invC s'.
Proof.
  unfold invC. intros P H.
  assert (SR : r_state s = RStartup -> searching s) by (intro E; unfold searching; rewrite E; exact I).
  assert (SN : r_state s = ROn -> searching s) by (intro E; unfold searching; rewrite E; exact I).
  assert (SI : r_state s = RIdle -> searching s) by (intro E; unfold searching; rewrite E; exact I).
  destruct P; intro X; try contradiction X; cbn; try discriminate; auto.
Qed.
Lemma invC_step g e s s' o : rstep g e s = (s', o) -> invC s -> invC s'.
Proof.
  intros P H. apply step_cases in P. destruct P; try exact H; try (rewrite H1; exact H).
  - destruct d; exact H.
  - intros [].
  - discriminate.
  - apply (invC_pcase _ _ _ _ _ _ _ _ _ _ H5). intros _. destruct H1 as [-> | ->]; destruct mid; discriminate.
  - apply (invC_pcase _ _ _ _ _ _ _ _ _ _ H1). destruct mid; exact H.
Qed.
Lemma invC_all g es : invC (rend g rec_zero es).
Proof.
  apply (hist_ind g (fun _ => True) (fun _ _ s => invC s)).
  - intros [].
  - intros es0 tr s e s' o H _ P. exact (invC_step _ _ _ _ _ P H).
  - apply Forall_forall. auto.
Qed.
