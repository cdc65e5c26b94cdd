(** Proofs about the two controllers. *)
From Verif Require Import Words ErrModel NodeModel ReconModel.
From Verif Require Import DualModel DualSpec.
From Coq Require Import Lia.

(** ** replaying calls *)
Lemma mode_after_app w m a b : mode_after w m (a ++ b) = mode_after w (mode_after w m a) b.
Proof. revert m; induction a as [|[v x ok|v x ok] a IH]; intros m; cbn; auto. Qed.
Lemma rate_after_app w r a b : rate_after w r (a ++ b) = rate_after w (rate_after w r a) b.
Proof. revert r; induction a as [|[v x ok|v x ok] a IH]; intros r; cbn; auto. Qed.

Lemma is_refl w : is w w = true.
Proof. now destruct w. Qed.
Lemma rate_known_spec r : rate_known r = true <-> common r.
Proof. unfold rate_known, common. rewrite !orb_true_iff, !N.eqb_eq. tauto. Qed.

Section Driver.
Variable ans : nat -> bool.

(** ** what a function may do: append calls with a property, leave the table *)
Definition appends (P : call -> Prop) (f : dfun) : Prop :=
  forall s, d_tab (snd (f s)) = d_tab s /\ exists L, d_log (snd (f s)) = d_log s ++ L /\ Forall P L.
Lemma app_ret P e : appends P (dret e).
Proof. intros s; split; [reflexivity|]. exists []. cbn. now rewrite app_nil_r. Qed.
Lemma app_set P f : (forall s, d_log (f s) = d_log s) -> (forall s, d_tab (f s) = d_tab s) -> appends P (dset f).
Proof. intros Hf Ht s; cbn. split; [apply Ht|]. exists []. rewrite Hf, app_nil_r. auto. Qed.
Lemma app_then P f g : appends P f -> appends P g -> appends P (f ;;+ g).
Proof.
  intros Hf Hg s. unfold dthen. destruct (Hf s) as [T1 [L1 [E1 F1]]]. destruct (Hg (snd (f s))) as [T2 [L2 [E2 F2]]].
  split; [congruence|]. exists (L1 ++ L2). rewrite E2, E1, app_assoc. split; [reflexivity|]. now apply Forall_app.
Qed.
Lemma app_ok P f g : appends P f -> appends P g -> appends P (f ;;& g).
Proof.
  intros Hf Hg s. unfold dok. destruct (Hf s) as [T1 [L1 [E1 F1]]].
  destruct (f s) as [e s1]; cbn in *. destruct (e =? ERR_OK); [|cbn; eauto].
  destruct (Hg s1) as [T2 [L2 [E2 F2]]]. split; [congruence|].
  exists (L1 ++ L2). rewrite E2, E1, app_assoc. split; [reflexivity|]. now apply Forall_app.
Qed.
Lemma app_mode (P : call -> Prop) w m : (forall ok, P (CallMode w m ok)) -> appends P (cp_mode ans w m).
Proof. intros H s; cbn. split; [reflexivity|]. eexists; split; [reflexivity|]. auto. Qed.
Lemma app_rate (P : call -> Prop) w m : (forall ok, P (CallRate w m ok)) -> appends P (cp_rate ans w m).
Proof. intros H s; cbn. split; [reflexivity|]. eexists; split; [reflexivity|]. auto. Qed.
Lemma app_mon (P : call -> Prop) m : (forall ok, P (CallMode Mon m ok)) -> appends P (mon_mode ans m).
Proof. intros H. apply app_then; [now apply app_mode|apply app_ret]. Qed.

(** calls for the main controller other than its start *)
Definition quiet (c : call) : Prop := match c with CallMode Main CStart _ => False | _ => True end.
Lemma quiet_mon : appends quiet (mon_enable ans).
Proof. intros s. unfold mon_enable. destruct (d_mode s); apply app_mon; exact (fun _ => I). Qed.
Lemma quiet_mode m : m <> MOperational -> appends quiet (dset_mode ans m).
Proof.
  intros Hm s. unfold dset_mode, dthen. cbn [dset snd].
  assert (Hq : exists c ok, snd (main_enable ans (w_dmode m s)) = w_dlog (d_log s ++ [CallMode Main c ok]) (w_dmode m s)
                            /\ c <> CStart).
  { unfold main_enable, cp_mode; cbn. destruct m; try congruence; cbn; do 2 eexists; split; try reflexivity; discriminate. }
  destruct Hq as [c [ok [Hq Hc]]]. rewrite Hq.
  destruct (quiet_mon (w_dlog (d_log s ++ [CallMode Main c ok]) (w_dmode m s))) as [T [L [E F]]].
  split; [exact T|]. exists (CallMode Main c ok :: L). rewrite E. cbn. rewrite <- app_assoc. split; [reflexivity|].
  constructor; [|exact F]. now destruct c.
Qed.
Lemma quiet_main_rate r : appends quiet (main_rate ans r).
Proof.
  intros s. unfold main_rate.
  destruct (d_mode s); try (apply app_ret with (e := E_INVALID_BAUDRATE)).
  all: destruct (rate_known r); [apply app_rate; exact (fun _ => I)|apply app_ret with (e := E_INVALID_BAUDRATE)].
Qed.
Lemma quiet_mon_rate r : appends quiet (mon_rate ans r).
Proof.
  unfold mon_rate. apply app_then; [apply app_mon; exact (fun _ => I)|].
  destruct (rate_known r).
  - apply app_then; [apply app_rate; exact (fun _ => I)|].
    intros s. destruct (d_mode s); apply app_mon; exact (fun _ => I).
  - apply app_then; [apply app_mon; exact (fun _ => I)|apply app_ret].
Qed.
Lemma quiet_loop rate tab : forall err, appends quiet (rate_loop ans tab rate err).
Proof.
  induction tab as [|r tab IH]; intros err; cbn [rate_loop]; [apply app_ret|].
  destruct (rate =? r); [|apply IH]. intros s.
  set (f := dset (w_dcur r) ;;+ (main_rate ans r ;;& mon_rate ans r) ;;& dset (w_dsaved (Some rate))).
  assert (Hf : appends quiet f).
  { apply app_then; [apply app_set; reflexivity|]. apply app_ok.
    - apply app_ok; [apply quiet_main_rate|apply quiet_mon_rate].
    - apply app_set; reflexivity. }
  destruct (Hf s) as [T1 [L1 [E1 F1]]]. destruct (f s) as [e s1]; cbn [snd] in *.
  destruct (IH e s1) as [T2 [L2 [E2 F2]]]. split; [congruence|].
  exists (L1 ++ L2). rewrite E2, E1, app_assoc. split; [reflexivity|]. now apply Forall_app.
Qed.
Lemma quiet_set_rate r : appends quiet (dset_rate ans r).
Proof. intros s. apply quiet_loop. Qed.
Lemma quiet_next : appends quiet (search_next ans).
Proof.
  intros s. unfold search_next.
  set (i := if (d_idx s <? 3)%nat then S (d_idx s) else 0%nat). set (r := nth i search_tab 0). clearbody r i.
  refine (app_then _ _ _ _ _ s); [apply app_mon; exact (fun _ => I)|].
  apply app_then; [apply app_set; reflexivity|].
  apply app_then; [apply quiet_mode; discriminate|].
  apply app_then; [|apply quiet_mon].
  clear s. intros s. destruct (quiet_set_rate r s) as [T1 [L1 [E1 F1]]].
  destruct (dset_rate ans r s) as [e s1]; cbn [snd] in *.
  destruct (e =? ERR_OK); cbn [snd]; [|split; [exact T1|exists L1; split; [exact E1|exact F1]]].
  destruct (quiet_mode MListen ltac:(discriminate) (w_dback r s1)) as [T2 [L2 [E2 F2]]].
  split; [rewrite T2; exact T1|]. exists (L1 ++ L2). rewrite E2. cbn [w_dback d_log]. rewrite E1, app_assoc.
  split; [reflexivity|]. now apply Forall_app.
Qed.

Lemma quiet_mode_after L : Forall quiet L -> forall m, m <> CStart -> mode_after Main m L <> CStart.
Proof.
  induction 1 as [|[v x ok|v x ok] L Hq HL IH]; intros m Hm; cbn; auto.
  apply IH. destruct v; cbn; auto. destruct ok; cbn; auto. now destruct x.
Qed.
Lemma moment_quiet s s' L calls :
  d_log s' = d_log s ++ L -> Forall quiet L -> mode_of Main s <> CStart -> moment s s' calls -> mode_after Main CStop calls <> CStart.
Proof.
  intros E F H [b [a [-> Ha]]]. rewrite E in Ha. apply app_inv_head in Ha. subst L. apply Forall_app in F.
  rewrite mode_after_app. apply quiet_mode_after; [tauto|exact H].
Qed.

(** ** same rate *)
Definition same (s : dual) : Prop := rates_accepted s -> rate_of Main s = rate_of Mon s.
Definition keeps (f : dfun) : Prop := forall s, same s -> same (snd (f s)).
Lemma keep_then f g : keeps f -> keeps g -> keeps (f ;;+ g).
Proof. intros Hf Hg s H. unfold dthen. auto. Qed.
Lemma keep_ok f g : keeps f -> keeps g -> keeps (f ;;& g).
Proof.
  intros Hf Hg s H. unfold dok. specialize (Hf s H). destruct (f s) as [e s1]; cbn in *.
  destruct (e =? ERR_OK); cbn; auto.
Qed.
Lemma keep_ret e : keeps (dret e).
Proof. intros s H; exact H. Qed.
Lemma keep_set f : (forall s, d_log (f s) = d_log s) -> keeps (dset f).
Proof. intros Hf s H. unfold same, rates_accepted, rate_of in *. cbn. now rewrite Hf. Qed.
Lemma keep_mode w m : keeps (cp_mode ans w m).
Proof.
  intros s H. unfold same, rates_accepted, rate_of in *. cbn. intros Ha. rewrite !rate_after_app. cbn. apply H.
  intros v r Hi. apply (Ha v r). apply in_app_iff. now left.
Qed.
Lemma keep_mon m : keeps (mon_mode ans m).
Proof. apply keep_then; [apply keep_mode|apply keep_ret]. Qed.
Lemma keep_enable : keeps (main_enable ans).
Proof. intros s. unfold main_enable. destruct (d_mode s); apply keep_mode. Qed.
Lemma keep_mon_enable : keeps (mon_enable ans).
Proof. intros s. unfold mon_enable. destruct (d_mode s); apply keep_mon. Qed.
Lemma keep_set_mode m : keeps (dset_mode ans m).
Proof. apply keep_then; [apply keep_set; reflexivity|]. apply keep_then; [apply keep_enable|apply keep_mon_enable]. Qed.

(** the rate calls of both controllers as one *)
Lemma rate_pair r s :
  exists L o1 o2 e, (main_rate ans r ;;& mon_rate ans r) s = (e, w_dlog (d_log s ++ L) s)
    /\ (L = [] /\ e = E_INVALID_BAUDRATE
        /\ ((common r /\ d_mode s <> MInit /\ d_mode s <> MStopped) \/ ~ common r)
        \/ common r /\ (d_mode s = MInit \/ d_mode s = MStopped) /\ e = ERR_OK
           /\ exists o3 o4, L = [CallRate Main r o1; CallMode Mon CStop o3; CallRate Mon r o2; CallMode Mon CListen o4]
                /\ o1 = ans (length (d_log s)) /\ o3 = ans (S (length (d_log s)))
                /\ o2 = ans (S (S (length (d_log s)))) /\ o4 = ans (S (S (S (length (d_log s)))))).
Proof.
  destruct (rate_known r) eqn:K.
  - destruct (d_mode s) eqn:M.
    2, 3, 4: idtac.
    1, 2: (eexists _, _, _, ERR_OK; split;
      [unfold dok, main_rate, mon_rate; rewrite M, K; unfold dthen, mon_mode, cp_rate, cp_mode, dthen, dret;
       cbn [fst snd]; change (ERR_OK =? ERR_OK) with true; cbn; rewrite M; cbn; unfold w_dlog; cbn;
       rewrite <- !app_assoc; cbn; reflexivity
      |right; split; [now apply rate_known_spec|]; split; [auto|]; split; [reflexivity|];
       do 2 eexists; split; [reflexivity|]; repeat split; f_equal; rewrite !app_length; cbn; lia]).
    all: exists [], true, true, E_INVALID_BAUDRATE; split;
      [unfold dok, main_rate; rewrite M; cbn; rewrite app_nil_r; now destruct s
      |left; split; [reflexivity|]; split; [reflexivity|]; left; split; [now apply rate_known_spec|split; discriminate]].
  - exists [], true, true, E_INVALID_BAUDRATE. split.
    + unfold dok, main_rate. rewrite K. destruct (d_mode s); cbn; rewrite app_nil_r; now destruct s.
    + left. split; [reflexivity|]. split; [reflexivity|]. right. intros C. apply rate_known_spec in C. congruence.
Qed.
Lemma keep_pair r : keeps (main_rate ans r ;;& mon_rate ans r).
Proof.
  intros s H. destruct (rate_pair r s) as [L [o1 [o2 [e [E C]]]]]. rewrite E. cbn [snd].
  destruct C as [[-> _]|[_ [_ [_ [o3 [o4 [-> _]]]]]]].
  - rewrite app_nil_r. destruct s; exact H.
  - unfold same, rates_accepted, rate_of in *. cbn. intros Ha. rewrite !rate_after_app. cbn.
    destruct o1; [|exfalso; apply (Ha Main r); apply in_app_iff; right; cbn; auto].
    destruct o2; [reflexivity|exfalso; apply (Ha Mon r); apply in_app_iff; right; cbn; auto].
Qed.
Lemma keep_loop rate tab : forall err, keeps (rate_loop ans tab rate err).
Proof.
  induction tab as [|r tab IH]; intros err; cbn [rate_loop]; [apply keep_ret|].
  destruct (rate =? r); [|apply IH]. intros s H.
  set (f := dset (w_dcur r) ;;+ (main_rate ans r ;;& mon_rate ans r) ;;& dset (w_dsaved (Some rate))).
  assert (Hf : keeps f).
  { apply keep_then; [apply keep_set; reflexivity|]. apply keep_ok; [apply keep_pair|apply keep_set; reflexivity]. }
  specialize (Hf s H). destruct (f s) as [e s1]. now apply IH.
Qed.
Lemma keep_rate r : keeps (dset_rate ans r).
Proof. intros s. apply keep_loop. Qed.
Lemma keep_next : keeps (search_next ans).
Proof.
  intros s. unfold search_next.
  set (i := if (d_idx s <? 3)%nat then S (d_idx s) else 0%nat). set (r := nth i search_tab 0). clearbody r i.
  refine (keep_then _ _ _ _ s); [apply keep_mon|].
  apply keep_then; [apply keep_set; reflexivity|].
  apply keep_then; [apply keep_set_mode|].
  apply keep_then; [|apply keep_mon_enable].
  clear s. intros s H. pose proof (keep_rate r s H) as H1. destruct (dset_rate ans r s) as [e s1]; cbn [snd] in *.
  destruct (e =? ERR_OK); cbn [snd]; [|exact H1]. now apply keep_set_mode.
Qed.
Lemma keep_end : keeps (search_end ans).
Proof.
  intros s. unfold search_end.
  refine (keep_then _ _ _ _ s); [apply keep_mon|]. apply keep_then; [apply keep_set_mode|].
  apply keep_ok; [apply keep_rate|]. apply keep_ok; [apply keep_set_mode|apply keep_set; reflexivity].
Qed.
Lemma keep_step o : keeps (dstep ans o).
Proof.
  destruct o; cbn [dstep].
  - apply keep_set_mode.
  - apply keep_rate.
  - intros s. unfold bus_rate. refine (keep_ok _ _ _ _ s); [apply keep_set_mode|]. apply keep_ok; [apply keep_rate|apply keep_set_mode].
  - apply keep_then; [apply keep_set_mode|]. apply keep_ok; [apply keep_rate|].
    apply keep_ok; [apply keep_set_mode|apply keep_set; reflexivity].
  - apply keep_then; [apply keep_set_mode|]. apply keep_then; [apply keep_rate|].
    apply keep_then; [apply keep_set; reflexivity|apply keep_set_mode].
  - apply keep_then; [apply keep_set; reflexivity|]. apply keep_then; [apply keep_set_mode|].
    apply keep_then; [apply keep_set_mode|apply keep_next].
  - apply keep_next.
  - apply keep_end.
  - apply keep_then; [apply keep_set; reflexivity|apply keep_end].
Qed.
Lemma keep_run ops : forall s, same s -> same (drun ans ops s).
Proof. induction ops as [|o ops IH]; intros s H; cbn; auto. apply IH. now apply keep_step. Qed.
End Driver.

(** ** a driver that refuses nothing *)
Definition hw_main (m : nmode) : cmode := match m with MOperational => CStart | MListen => CListen | _ => CStop end.
Definition hw_mon (m : nmode) : cmode := match m with MListen => CListen | _ => CStart end.

(** everything but the calls *)
Definition rest (s s' : dual) : Prop :=
  d_tab s' = d_tab s /\ d_idx s' = d_idx s /\ d_back s' = d_back s /\ d_run s' = d_run s.

Lemma set_mode_log ans m s : obeys ans ->
  dset_mode ans m s =
  (ERR_OK, w_dlog (d_log s ++ [CallMode Main (hw_main m) true; CallMode Mon (hw_mon m) true]) (w_dmode m s)).
Proof.
  intros O. unfold dset_mode, dthen, dset, main_enable, mon_enable, mon_mode, cp_mode, dthen, dret. cbn [snd fst].
  destruct m; cbn; rewrite !O; unfold w_dlog, w_dmode; cbn; rewrite <- app_assoc; reflexivity.
Qed.
Lemma mon_mode_log ans m s : obeys ans ->
  mon_mode ans m s = (ERR_OK, w_dlog (d_log s ++ [CallMode Mon m true]) s).
Proof. intros O. unfold mon_mode, cp_mode, dthen, dret. cbn. now rewrite O. Qed.
Lemma mon_enable_log ans s : obeys ans ->
  mon_enable ans s = (ERR_OK, w_dlog (d_log s ++ [CallMode Mon (hw_mon (d_mode s)) true]) s).
Proof. intros O. unfold mon_enable. destruct (d_mode s); apply mon_mode_log, O. Qed.

Lemma pair_log ans r s : obeys ans ->
  (common r -> d_mode s = MInit \/ d_mode s = MStopped ->
   (main_rate ans r ;;& mon_rate ans r) s =
   (ERR_OK, w_dlog (d_log s ++ [CallRate Main r true; CallMode Mon CStop true; CallRate Mon r true; CallMode Mon CListen true]) s))
  /\ ((~ common r \/ (d_mode s <> MInit /\ d_mode s <> MStopped)) ->
      (main_rate ans r ;;& mon_rate ans r) s = (E_INVALID_BAUDRATE, s)).
Proof.
  intros O. destruct (rate_pair ans r s) as [L [o1 [o2 [e [E C]]]]]. split.
  - intros Hc Hm. rewrite E. destruct C as [[_ [_ C]]|[_ [_ [-> [o3 [o4 [-> [-> [-> [-> ->]]]]]]]]]].
    + exfalso. destruct C as [C|C]; [|auto]. destruct Hm; tauto.
    + now rewrite !O.
  - intros Hn. rewrite E. destruct C as [[-> [-> _]]|[C [Hm _]]].
    + rewrite app_nil_r. now destruct s.
    + exfalso. destruct Hn as [Hn|Hn]; [auto|]. destruct Hm; tauto.
Qed.

(** setting a rate *)
Lemma loop_log ans rate (O : obeys ans) tab : forall err s,
  (~ In rate tab -> rate_loop ans tab rate err s = (err, s))
  /\ (In rate tab -> common rate -> d_mode s = MInit \/ d_mode s = MStopped ->
      exists s', rate_loop ans tab rate err s = (ERR_OK, s') /\ rest s s' /\ d_mode s' = d_mode s /\ d_cur s' = rate
        /\ d_saved s' = Some rate /\ exists L, d_log s' = d_log s ++ L
        /\ (forall m, mode_after Main m L = m) /\ (forall m, mode_after Mon m L = CListen)
        /\ (forall w x, rate_after w x L = Some rate))
  /\ (In rate tab -> ~ common rate \/ (d_mode s <> MInit /\ d_mode s <> MStopped) ->
      rate_loop ans tab rate err s = (E_INVALID_BAUDRATE, w_dcur rate s)).
Proof.
  induction tab as [|r tab IH]; intros err s; cbn [rate_loop In].
  - split; [reflexivity|]. split; intros [].
  - destruct (rate =? r) eqn:Er.
    + apply N.eqb_eq in Er. subst r. split; [intros H; exfalso; auto|]. split.
      * intros _ Hc Hm. unfold dok at 1, dthen. cbn [dset snd].
        destruct (pair_log ans rate (w_dcur rate s) O) as [P _]. rewrite (P Hc Hm).
        change (ERR_OK =? ERR_OK) with true. cbn [dset].
        match goal with |- context [rate_loop ans tab rate ERR_OK ?x] => set (s1 := x) end.
        destruct (in_dec N.eq_dec rate tab) as [Hi|Hi].
        -- destruct (IH ERR_OK s1) as [_ [H _]]. destruct (H Hi Hc Hm) as [s' [E [R [Em [Ec [Es [L [El [A [B C]]]]]]]]]].
           exists s'. split; [exact E|]. split; [exact R|]. split; [exact Em|]. split; [exact Ec|]. split; [exact Es|].
           eexists. split; [rewrite El; cbn; rewrite <- app_assoc; reflexivity|].
           split; [intros m; rewrite mode_after_app; apply A|]. split; [intros m; rewrite mode_after_app; apply B|].
           intros w x. rewrite rate_after_app. apply C.
        -- destruct (IH ERR_OK s1) as [H _]. rewrite (H Hi). exists s1. split; [reflexivity|].
           split; [repeat split|]. split; [reflexivity|]. split; [reflexivity|]. split; [reflexivity|].
           eexists. split; [reflexivity|]. split; [reflexivity|]. split; [reflexivity|]. now intros [] x.
      * intros _ Hn. unfold dok at 1, dthen. cbn [dset snd].
        destruct (pair_log ans rate (w_dcur rate s) O) as [_ P]. rewrite (P Hn).
        change (E_INVALID_BAUDRATE =? ERR_OK) with false. cbn [dset].
        destruct (in_dec N.eq_dec rate tab) as [Hi|Hi].
        -- destruct (IH E_INVALID_BAUDRATE (w_dcur rate s)) as [_ [_ H]]. now rewrite (H Hi Hn).
        -- destruct (IH E_INVALID_BAUDRATE (w_dcur rate s)) as [H _]. now rewrite (H Hi).
    + apply N.eqb_neq in Er. destruct (IH err s) as [A [B C]]. split; [intros H; apply A; auto|].
      split; intros [H|H]; try congruence; auto.
Qed.

(** ** the modes at the end of an operation *)
Definition modes (s : dual) : Prop :=
  mode_of Main s = hw_main (d_mode s)
  /\ match d_mode s with MOperational => mode_of Mon s = CStart | MListen => mode_of Mon s = CListen | _ => True end.
Definition post (f : dfun) : Prop := forall s, modes (snd (f s)).

Lemma set_mode_modes ans m s : obeys ans -> modes (snd (dset_mode ans m s)).
Proof.
  intros O. rewrite set_mode_log by exact O. unfold modes, mode_of. cbn. rewrite !mode_after_app. cbn.
  split; [reflexivity|]. now destruct m.
Qed.
Lemma set_rate_modes ans r s : obeys ans -> modes s -> modes (snd (dset_rate ans r s)).
Proof.
  intros O H. unfold dset_rate. destruct (loop_log ans r O (d_tab s) ERR_OK s) as [A [B C]].
  destruct (in_dec N.eq_dec r (d_tab s)) as [Hi|Hi]; [|now rewrite (A Hi)].
  destruct (rate_known r) eqn:K.
  2: { rewrite (C Hi); [exact H|]. left. intros Q. apply rate_known_spec in Q. congruence. }
  apply rate_known_spec in K.
  assert (D : (d_mode s = MInit \/ d_mode s = MStopped) \/ (d_mode s <> MInit /\ d_mode s <> MStopped))
    by (destruct (d_mode s); auto; right; split; discriminate).
  destruct D as [D|D]; [|rewrite (C Hi (or_intror D)); exact H].
  destruct (B Hi K D) as [s' [E [_ [Em [_ [_ [L [El [X [Y _]]]]]]]]]]. rewrite E. cbn [snd].
  unfold modes, mode_of in *. rewrite Em, El, !mode_after_app, X. split; [apply H|]. destruct D as [-> | ->]; exact I.
Qed.
Lemma ok_modes f g s : modes (snd (f s)) -> (forall s1, modes s1 -> modes (snd (g s1))) -> modes (snd ((f ;;& g) s)).
Proof. intros Hf Hg. unfold dok. destruct (f s) as [e s1]; cbn in *. destruct (e =? ERR_OK); cbn; auto. Qed.
Lemma next_modes ans s : obeys ans -> modes (snd (search_next ans s)).
Proof.
  intros O. unfold search_next. set (i := if (d_idx s <? 3)%nat then S (d_idx s) else 0%nat). set (r := nth i search_tab 0).
  unfold dthen. cbn [dset snd]. set (s1 := snd (dset_mode ans MStopped _)).
  assert (M1 : modes s1) by (apply set_mode_modes, O). clearbody s1 r.
  pose proof (set_rate_modes ans r s1 O M1) as M2. destruct (dset_rate ans r s1) as [e s2]; cbn [snd] in *.
  assert (M3 : modes (snd (if e =? ERR_OK then dset_mode ans MListen (w_dback r s2) else (e, w_dback r s2)))).
  { destruct (e =? ERR_OK); [apply set_mode_modes, O|exact M2]. }
  destruct (if e =? ERR_OK then _ else _) as [e3 s3]; cbn [snd] in *. rewrite mon_enable_log by exact O. cbn [snd].
  unfold modes, mode_of in *. cbn. rewrite !mode_after_app. cbn. split; [apply M3|]. now destruct (d_mode s3).
Qed.
Lemma end_modes ans s : obeys ans -> modes (snd (search_end ans s)).
Proof.
  intros O. unfold search_end, dthen. set (s1 := snd (mon_disable ans s)).
  set (s2 := snd (dset_mode ans MStopped s1)). assert (M2 : modes s2) by (apply set_mode_modes, O). clearbody s2.
  apply ok_modes; [now apply set_rate_modes|]. intros s3 M3. apply ok_modes; [apply set_mode_modes, O|]. intros s4 M4; exact M4.
Qed.
Lemma step_modes ans o s : obeys ans -> modes s -> modes (snd (dstep ans o s)).
Proof.
  intros O H. destruct o; cbn [dstep].
  - apply set_mode_modes, O.
  - now apply set_rate_modes.
  - unfold bus_rate. apply ok_modes; [apply set_mode_modes, O|]. intros s1 M1.
    apply ok_modes; [now apply set_rate_modes|]. intros s2 M2. apply set_mode_modes, O.
  - unfold go_online, dthen. apply ok_modes; [apply set_rate_modes, set_mode_modes; exact O|]. intros s2 M2.
    apply ok_modes; [apply set_mode_modes, O|]. intros s4 M4; exact M4.
  - unfold go_search, dthen. apply set_mode_modes, O.
  - unfold search_begin, dthen. apply next_modes, O.
  - apply next_modes, O.
  - apply end_modes, O.
  - unfold dthen. apply end_modes, O.
Qed.
Lemma run_modes ans ops : obeys ans -> forall s, modes s -> modes (drun ans ops s).
Proof. intros O. induction ops as [|o ops IH]; intros s H; cbn; auto. apply IH. now apply step_modes. Qed.

(** ** going online, searching *)
Lemma dset_rate_cases ans r s : obeys ans ->
  (~ In r (d_tab s) -> dset_rate ans r s = (ERR_OK, s))
  /\ (In r (d_tab s) -> common r -> d_mode s = MInit \/ d_mode s = MStopped ->
      exists s', dset_rate ans r s = (ERR_OK, s') /\ rest s s' /\ d_mode s' = d_mode s /\ d_cur s' = r
        /\ d_saved s' = Some r /\ exists L, d_log s' = d_log s ++ L
        /\ (forall m, mode_after Main m L = m) /\ (forall m, mode_after Mon m L = CListen)
        /\ (forall w x, rate_after w x L = Some r))
  /\ (In r (d_tab s) -> ~ common r \/ (d_mode s <> MInit /\ d_mode s <> MStopped) ->
      dset_rate ans r s = (E_INVALID_BAUDRATE, w_dcur r s)).
Proof. intros O. apply loop_log, O. Qed.

(** stop, set a rate, set a mode *)
Lemma switch ans r m s0 s :
  obeys ans -> In r (d_tab s0) -> common r -> d_tab s = d_tab s0 -> d_mode s = MStopped ->
  exists s', (dset_rate ans r ;;& dset_mode ans m) s = (ERR_OK, s')
    /\ d_mode s' = m /\ d_cur s' = r /\ d_saved s' = Some r /\ rest s s'
    /\ rate_of Main s' = Some r /\ rate_of Mon s' = Some r /\ mode_of Main s' = hw_main m /\ mode_of Mon s' = hw_mon m.
Proof.
  intros O Hi Hc Ht Hm. destruct (dset_rate_cases ans r s O) as [_ [B _]].
  rewrite Ht in B. destruct (B Hi Hc (or_intror Hm)) as [s' [E [R [Em [Ec [Es [L [El [X [Y Z]]]]]]]]]].
  unfold dok. rewrite E. change (ERR_OK =? ERR_OK) with true. rewrite set_mode_log by exact O.
  eexists. split; [reflexivity|]. split; [reflexivity|]. split; [exact Ec|]. split; [exact Es|]. split; [exact R|].
  unfold rate_of, mode_of. cbn. rewrite El, !rate_after_app, !mode_after_app, !Z. cbn. now destruct m.
Qed.
