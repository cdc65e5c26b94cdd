(** Switching modules silent and awake by the application while the bus interrupts (C78). *)
From Verif Require Import Words WordsFacts NodeModel SwIrqModel SwIrqSpec SwIrq.

(** C78: if the interrupts switch other modules than the application does at that moment, and none of them hits between the reading and
    the writing of the send register: after every history every module transmits all its objects with the application's data if the last order
    for it was to be awake, and nothing otherwise; and in every process request on the way this holds for all modules
    but the one that is being switched. *)
Theorem C78_switch_partial : forall txn h s s' e, (forall m, (txn m <= 4)%nat) -> polite_hist h -> sound txn s -> wrun txn s h = (s', e) ->
  frames s' = wanted txn (fun m => ordered txn h m (w_silent s m)) /\
  Forall (fun r => forall m, (m < 8)%nat -> m <> r_busy r -> filter (of_module m) (r_frames r) = wanted_of txn (r_silent r) m) e.
Proof.
  intros txn h s s' e L P Hs R. destruct (run_ok txn L h s s' e P Hs R) as (A & B & C). split.
  - rewrite (sound_frames txn L s' A). unfold wanted. apply flat_map_ext. intro m. unfold wanted_of. rewrite B. reflexivity.
  - eapply Forall_impl; [|exact C]. intros r G. apply G.
Qed.
Print Assumptions C78_switch_partial.

(** two modules with two objects each, both awake *)
Definition two (m : nat) : nat := if (m <? 2)%nat then 2 else 0.
Definition s_two : sw := Sw 51 (fun m => if (m <? 2)%nat then AWAKE else SILENT) (fun m _ => (m <? 2)%nat).
Lemma two_le m : (two m <= 4)%nat.
Proof. unfold two. destruct (m <? 2)%nat; lia. Qed.
Lemma s_two_sound : sound two s_two.
Proof.
  intros m L. split; [|split].
  - unfold s_two. cbn [w_silent]. destruct (m <? 2)%nat; auto.
  - intros i Li. do 8 (destruct m as [|m]; [do 4 (destruct i as [|i]; [reflexivity|]); lia|]). lia.
  - intros i Li. unfold two in Li. cbn [s_two w_conv w_silent]. destruct (m <? 2)%nat; [reflexivity|lia].
Qed.
Definition at_access (k : nat) (o : list wirq) : nat -> list wirq := fun n => if (n =? k)%nat then o else [].
(* module 0 is silenced; a message silences and wakes module 1 at the same time, and there is a request *)
Definition h_two : whist := [(0%nat, SILENT, at_access 4 [ISwitch 1 SILENT; IRequest; ISwitch 1 AWAKE])].
Example C78_switch_case : polite_hist h_two /\ sound two s_two /\ frames (fst (wrun two s_two h_two)) = [(1, 0, true); (1, 1, true)]%nat /\
  map r_frames (snd (wrun two s_two h_two)) = [[(0, 1, true)]]%nat.
Proof.
  split; [|split; [exact s_two_sound|split; vm_compute; reflexivity]]. constructor; [|constructor]. cbn [fst snd]. split; [lia|]. split; [left; reflexivity|]. split.
  - intro k. unfold at_access. destruct (k =? 4)%nat; [|constructor]. repeat (constructor; [cbn; unfold state_ok; repeat split; auto; lia|]). constructor.
  - intro i. unfold at_access. destruct (Nat.eqb_spec (3 + 3 * i) 4); [lia|reflexivity].
Qed.

(** accesses of the program *)
Lemma prog_at n i : (i < n)%nat -> exists a b, switch_prog n = a ++ [WLoad i; WStore i; WConv i] ++ b /\ length a = (2 + 3 * i)%nat /\
  a = WState :: WSwitch :: flat_map body (seq 0 i) /\ b = flat_map body (seq (S i) (n - S i)).
Proof.
  intro L. exists (WState :: WSwitch :: flat_map body (seq 0 i)), (flat_map body (seq (S i) (n - S i))). split; [|split; [|split; reflexivity]].
  - unfold switch_prog. replace n with (i + S (n - S i))%nat at 1 by lia. change (fun i0 => [WLoad i0; WStore i0; WConv i0]) with body. rewrite seq_app, flat_map_app. reflexivity.
  - cbn [length]. f_equal. f_equal. clear L. assert (forall k j, length (flat_map body (seq j k)) = (3 * k)%nat) as X; [|rewrite X; lia].
    induction k as [|k IH]; intro j; [reflexivity|]. cbn [seq flat_map]. rewrite app_length, IH. cbn [body length]. lia.
Qed.
(** one interrupt at access [k], no others *)
Lemma quiet_tail txn t st k o : forall prog j l s, (k < j)%nat -> swexec txn t st (at_access k o) j prog l s = (wexec t st prog l s, []).
Proof.
  induction prog as [|a prog IH]; intros j l s L; cbn [swexec wexec]; unfold at_access at 1; (destruct (Nat.eqb_spec j k); [lia|]); cbn [irqs]; [reflexivity|].
  destruct (waccess t st a l s) as [l' s']. rewrite IH by lia. reflexivity.
Qed.
Definition after (t : nat) (st : N) := fix after (prog : list wacc) (l : wlocal) (s : sw) : wlocal * sw :=
  match prog with [] => (l, s) | a :: r => after r (fst (waccess t st a l s)) (snd (waccess t st a l s)) end.
Lemma hit txn t st o : forall pre j a post l s,
  swexec txn t st (at_access (j + length pre) o) j (pre ++ a :: post) l s =
  (let '(l1, s1) := after t st pre l s in let '(s2, e2) := irqs txn t s1 o in let '(l3, s3) := waccess t st a l1 s2 in (wexec t st post l3 s3, e2)).
Proof.
  induction pre as [|b pre IH]; intros j a post l s.
  - cbn [app length swexec after]. rewrite Nat.add_0_r. unfold at_access at 1. rewrite Nat.eqb_refl. destruct (irqs txn t s o) as [s2 e2]. destruct (waccess t st a l s2) as [l3 s3].
    rewrite quiet_tail by lia. rewrite app_nil_r. reflexivity.
  - cbn [app length swexec after]. unfold at_access at 1. destruct (Nat.eqb_spec j (j + S (length pre))); [lia|]. cbn [irqs]. destruct (waccess t st b l s) as [l' s'] eqn:E. cbn [fst snd].
    replace (j + S (length pre))%nat with (S j + length pre)%nat by lia. rewrite IH. destruct (after t st pre l' s') as [l1 s1]. destruct (irqs txn t s1 o) as [s2 e2]. destruct (waccess t st a l1 s2). reflexivity.
Qed.
Lemma after_app t st : forall a b l s, after t st (a ++ b) l s = after t st b (fst (after t st a l s)) (snd (after t st a l s)).
Proof. induction a as [|x a IH]; intros b l s; cbn [app after fst snd]; [reflexivity|apply IH]. Qed.
Lemma after_wexec t st : forall prog l s, snd (after t st prog l s) = wexec t st prog l s.
Proof. induction prog as [|a prog IH]; intros l s; cbn [after wexec snd]; [reflexivity|]. rewrite IH. destruct (waccess t st a l s); reflexivity. Qed.
Lemma after_to t st : forall i j l s, wl_to (fst (after t st (flat_map body (seq j i)) l s)) = wl_to l.
Proof. induction i as [|i IH]; intros j l s; [reflexivity|]. cbn [seq flat_map body app after fst snd waccess]. rewrite IH. reflexivity. Qed.
Lemma wexec_cons t st a r l s : wexec t st (a :: r) l s = wexec t st r (fst (waccess t st a l s)) (snd (waccess t st a l s)).
Proof. cbn [wexec]. destruct (waccess t st a l s); reflexivity. Qed.
Definition pre (i : nat) : list wacc := WState :: WSwitch :: flat_map body (seq 0 i).
Lemma pre_effect t st i s : state_ok st -> exists l1 s1, after t st (pre i) (WLocal st 0) s = (l1, s1) /\ wl_to l1 = st /\
  (forall m, w_silent s1 m = if (m =? t)%nat then st else w_silent s m) /\
  (forall m j, (j < 4)%nat -> (i <= 4)%nat -> N.testbit (w_reg s1) (N.of_nat (4 * m + j)) = if (m =? t)%nat && (j <? i)%nat then st =? AWAKE else N.testbit (w_reg s) (N.of_nat (4 * m + j))) /\
  (forall m j, w_conv s1 m j = if (m =? t)%nat && (j <? i)%nat then st =? AWAKE else w_conv s m j).
Proof.
  intro S. destruct (after t st (pre i) (WLocal st 0) s) as [l1 s1] eqn:E. exists l1, s1. split; [reflexivity|]. unfold pre in E. cbn [after waccess fst snd put_silent w_silent wl_tmp] in E. rewrite Nat.eqb_refl in E.
  pose proof (after_to t st i 0 (WLocal st 0) (put_silent s t st)) as T. pose proof (after_wexec t st (flat_map body (seq 0 i)) (WLocal st 0) (put_silent s t st)) as W. rewrite E in T, W. cbn [fst snd wl_to] in T, W.
  split; [exact T|]. destruct (loop_effect t st i 0 (WLocal st 0) (put_silent s t st) S) as (s' & R & A & B & C). rewrite R in W. subst s'. split; [|split].
  - intro m. rewrite A. reflexivity.
  - intros m j Lj Li. rewrite B by lia. cbn [Nat.leb Nat.add wl_to]. rewrite andb_true_r. reflexivity.
  - intros m j. rewrite C. cbn [Nat.leb Nat.add wl_to]. rewrite andb_true_r. reflexivity.
Qed.
Lemma hit_load txn t st i o s : (i < txn t)%nat -> swexec txn t st (at_access (2 + 3 * i) o) 0 (switch_prog (txn t)) (WLocal st 0) s =
  (let '(l1, s1) := after t st (pre i) (WLocal st 0) s in let '(s2, e2) := irqs txn t s1 o in (wexec t st (flat_map body (seq i (txn t - i))) l1 s2, e2)).
Proof.
  intro L. destruct (prog_at (txn t) i L) as (a & b & E & La & Ea & Eb). rewrite E. subst a b. fold (pre i) in *. replace (2 + 3 * i)%nat with (0 + length (pre i))%nat by (rewrite La; lia).
  change ([WLoad i; WStore i; WConv i] ++ flat_map body (seq (S i) (txn t - S i))) with (WLoad i :: ([WStore i; WConv i] ++ flat_map body (seq (S i) (txn t - S i)))). rewrite hit.
  destruct (after t st (pre i) (WLocal st 0) s) as [l1 s1]. destruct (irqs txn t s1 o) as [s2 e2]. replace (txn t - i)%nat with (S (txn t - S i)) by lia. reflexivity.
Qed.
Lemma hit_store txn t st i o s : (i < txn t)%nat -> swexec txn t st (at_access (3 + 3 * i) o) 0 (switch_prog (txn t)) (WLocal st 0) s =
  (let '(l1, s1) := after t st (pre i) (WLocal st 0) s in let '(s2, e2) := irqs txn t s1 o in
   (wexec t st ([WStore i; WConv i] ++ flat_map body (seq (S i) (txn t - S i))) (WLocal (wl_to l1) (w_reg s1)) s2, e2)).
Proof.
  intro L. destruct (prog_at (txn t) i L) as (a & b & E & La & Ea & Eb). rewrite E. subst a b. fold (pre i) in *.
  replace (pre i ++ [WLoad i; WStore i; WConv i] ++ flat_map body (seq (S i) (txn t - S i))) with ((pre i ++ [WLoad i]) ++ WStore i :: ([WConv i] ++ flat_map body (seq (S i) (txn t - S i)))) by (rewrite <- app_assoc; reflexivity).
  replace (3 + 3 * i)%nat with (0 + length (pre i ++ [WLoad i]))%nat by (rewrite app_length, La; cbn [length]; lia). rewrite hit, after_app.
  destruct (after t st (pre i) (WLocal st 0) s) as [l1 s1]. cbn [after waccess fst snd]. destruct (irqs txn t s1 o) as [s2 e2]. reflexivity.
Qed.
Lemma hit_conv txn t st i o s : (i < txn t)%nat -> swexec txn t st (at_access (4 + 3 * i) o) 0 (switch_prog (txn t)) (WLocal st 0) s =
  (let '(l1, s1) := after t st (pre i) (WLocal st 0) s in let '(s2, e2) := irqs txn t (snd (waccess t st (WStore i) (WLocal (wl_to l1) (w_reg s1)) s1)) o in
   (wexec t st ([WConv i] ++ flat_map body (seq (S i) (txn t - S i))) (WLocal (wl_to l1) (w_reg s1)) s2, e2)).
Proof.
  intro L. destruct (prog_at (txn t) i L) as (a & b & E & La & Ea & Eb). rewrite E. subst a b. fold (pre i) in *.
  replace (pre i ++ [WLoad i; WStore i; WConv i] ++ flat_map body (seq (S i) (txn t - S i))) with ((pre i ++ [WLoad i; WStore i]) ++ WConv i :: flat_map body (seq (S i) (txn t - S i))) by (rewrite <- app_assoc; reflexivity).
  replace (4 + 3 * i)%nat with (0 + length (pre i ++ [WLoad i; WStore i]))%nat by (rewrite app_length, La; cbn [length]; lia). rewrite hit, after_app.
  destruct (after t st (pre i) (WLocal st 0) s) as [l1 s1]. cbn [after]. change (waccess t st (WLoad i) (fst (l1, s1)) (snd (l1, s1))) with (WLocal (wl_to l1) (w_reg s1), s1). cbn [fst snd].
  assert (fst (waccess t st (WStore i) (WLocal (wl_to l1) (w_reg s1)) s1) = WLocal (wl_to l1) (w_reg s1)) as -> by reflexivity. destruct (irqs txn t _ o) as [s2 e2]. reflexivity.
Qed.

(** Finding: can_main_synchron_tx_data_off and _on read and write the register of all modules without an interrupt lock.  For every pair of
    modules: a message that switches the other module between the reading and the writing is lost for the transmission, although the
    state and the routines are switched.  A silenced module goes on sending, and the contents of its frames are no application data; a module
    that was woken up sends nothing. *)
Theorem C78_lost_refuted : forall txn s a b st x i s' e, (forall m, (txn m <= 4)%nat) -> sound txn s -> (a < 8)%nat -> (b < 8)%nat -> a <> b ->
  state_ok st -> state_ok x -> w_silent s b <> x -> (i < txn a)%nat ->
  wrun txn s [(a, st, at_access (3 + 3 * i) [ISwitch b x])] = (s', e) ->
  w_silent s' b = x /\ filter (of_module b) (frames s') = (if x =? SILENT then map (fun j => (b, j, false)) (seq 0 (txn b)) else []).
Proof.
  intros txn s a b st x i s' e L Hs La Lb N So Sx D Li R. cbn [wrun] in R. rewrite hit_store in R by exact Li.
  destruct (pre_effect a st i s So) as (l1 & s1 & E & T & A & B & C). rewrite E in R. cbn [irqs] in R. rewrite T in R. set (s2 := switch txn b x s1) in *.
  destruct (switch_effect txn L b x s1 Sx) as (A2 & B2 & C2). fold s2 in A2, B2, C2. clearbody s2. apply (f_equal fst) in R. cbn [fst] in R. subst s'.
  change ([WStore i; WConv i] ++ flat_map body (seq (S i) (txn a - S i))) with (WStore i :: WConv i :: flat_map body (seq (S i) (txn a - S i))). rewrite !wexec_cons. set (l2 := WLocal st (w_reg s1)). set (s3 := snd (waccess a st (WStore i) l2 s2)) in *.
  assert (w_silent s3 = w_silent s2 /\ w_conv s3 = w_conv s2 /\ forall p, N.testbit (w_reg s3) p = if p =? N.of_nat (4 * a + i) then st =? AWAKE else N.testbit (w_reg s1) p) as (A3 & C3 & B3).
  { unfold s3. unfold waccess. destruct So as [->| ->]; cbn [l2 wl_to N.eqb SILENT AWAKE Pos.eqb snd put_reg w_reg w_silent w_conv wl_tmp]; (split; [reflexivity|]); (split; [reflexivity|]); intro p; [apply off_bit|apply on_bit]. }
  change (fst (waccess a st (WStore i) l2 s2)) with l2. clearbody s3.
  destruct (conved a st i l2 s3 So) as (A4 & B4 & C4). change (fst (waccess a st (WConv i) l2 s3)) with l2.
  set (s4 := snd (waccess a st (WConv i) l2 s3)) in *. clearbody s4.
  destruct (loop_effect a st (txn a - S i) (S i) l2 s4 So) as (s5 & R5 & A5 & B5 & C5). rewrite R5.
  assert (b <> a) as N' by congruence. apply Nat.eqb_neq in N'. pose proof (L a) as L4.
  assert (w_silent s5 b = x) as Q1 by (rewrite A5, A4, A3, A2, Nat.eqb_refl; reflexivity).
  assert (forall j, (j < 4)%nat -> N.testbit (w_reg s5) (N.of_nat (4 * b + j)) = N.testbit (w_reg s) (N.of_nat (4 * b + j))) as Q2.
  { intros j Lj. rewrite B5 by lia. rewrite N'. cbn [andb]. rewrite B4, B3. destruct (N.eqb_spec (N.of_nat (4 * b + j)) (N.of_nat (4 * a + i))); [lia|]. rewrite B by lia. rewrite N'. reflexivity. }
  assert (forall j, (j < txn b)%nat -> w_conv s5 b j = (x =? AWAKE)) as Q3.
  { intros j Lj. rewrite C5, N'. cbn [andb]. rewrite C4, N'. cbn [andb]. rewrite C3, C2, Nat.eqb_refl. destruct (Nat.ltb_spec j (txn b)); [reflexivity|lia]. }
  split; [exact Q1|]. rewrite (filter_frames txn L) by exact Lb. unfold frames_of. cbn [seq flat_map]. rewrite !Q2 by lia. destruct (Hs b Lb) as (H1 & H2 & _). rewrite !H2 by lia. pose proof (L b) as L5.
  destruct Sx as [->| ->]; destruct H1 as [H1|H1]; try congruence; rewrite H1; cbn [N.eqb SILENT AWAKE Pos.eqb]; rewrite ?andb_false_r, ?andb_true_r; [|reflexivity].
  assert (txn b = 0 \/ txn b = 1 \/ txn b = 2 \/ txn b = 3 \/ txn b = 4)%nat as Dn by lia.
  destruct Dn as [E2|[E2|[E2|[E2|E2]]]]; rewrite E2 in *; cbn [Nat.ltb Nat.leb app map seq]; rewrite ?Q3 by lia; reflexivity.
Qed.
Print Assumptions C78_lost_refuted.
Example C78_lost_case : sound two s_two /\ w_silent s_two 1 <> SILENT /\ (0 < two 0)%nat /\
  frames (fst (wrun two s_two [(0%nat, SILENT, at_access 3 [ISwitch 1 SILENT])])) = [(1, 0, false); (1, 1, false)]%nat.
Proof. split; [exact s_two_sound|]. split; [discriminate|]. split; [vm_compute; lia|vm_compute; reflexivity]. Qed.

(** Finding: the flag is set before the routine.  A process request in between sends a frame of the module without application data. *)
Theorem C78_contents_refuted : forall txn s a i s' e, (forall m, (txn m <= 4)%nat) -> sound txn s -> (a < 8)%nat -> w_silent s a = SILENT -> (i < txn a)%nat ->
  wrun txn s [(a, AWAKE, at_access (4 + 3 * i) [IRequest])] = (s', e) -> exists r, e = [r] /\ In (a, i, false) (r_frames r).
Proof.
  intros txn s a i s' e L Hs La Sa Li R. cbn [wrun] in R. rewrite hit_conv in R by exact Li. assert (state_ok AWAKE) as So by (right; reflexivity).
  destruct (pre_effect a AWAKE i s So) as (l1 & s1 & E & T & A & B & C). rewrite E, T in R.
  destruct (stored a AWAKE i (WLocal AWAKE (w_reg s1)) s1 So eq_refl) as [Es Bs]. set (s2 := snd (waccess a AWAKE (WStore i) (WLocal AWAKE (w_reg s1)) s1)) in *. clearbody s2. cbn [irqs] in R. apply (f_equal snd) in R. cbn [snd app] in R. subst e. eexists. split; [reflexivity|]. cbn [r_frames].
  unfold frames. apply in_flat_map. exists a. split; [apply in_seq; lia|]. apply in_flat_map. exists i. pose proof (L a). split; [apply in_seq; lia|].
  rewrite Bs, N.eqb_refl. cbn [wl_to N.eqb AWAKE Pos.eqb]. left. rewrite Es. cbn [put_reg w_conv]. rewrite C, Nat.eqb_refl. destruct (Nat.ltb_spec i i); [lia|]. cbn [andb].
  destruct (Hs a La) as (_ & _ & HC). rewrite HC, Sa by exact Li. reflexivity.
Qed.
Print Assumptions C78_contents_refuted.
Definition s_off : sw := fst (wrun two s_two [(0%nat, SILENT, at_access 0 [])]).
Lemma s_off_sound : sound two s_off.
Proof.
  unfold s_off. destruct (wrun two s_two [(0%nat, SILENT, at_access 0 [])]) as [s' e] eqn:E. apply (run_ok two two_le _ _ _ _) in E; [apply E| |exact s_two_sound].
  constructor; [|constructor]. cbn [fst snd]. split; [lia|]. split; [left; reflexivity|]. split; intros k; unfold at_access; destruct (Nat.eqb _ _); constructor.
Qed.
Example C78_contents_case : sound two s_off /\ w_silent s_off 0 = SILENT /\ (0 < two 0)%nat /\
  map r_frames (snd (wrun two s_off [(0%nat, AWAKE, at_access 4 [IRequest])])) = [[(0, 0, false); (1, 0, true); (1, 1, true)]]%nat.
Proof. split; [exact s_off_sound|]. split; [vm_compute; reflexivity|]. split; [vm_compute; lia|vm_compute; reflexivity]. Qed.

(** Finding: a process request between two objects gets a part of the module's objects only. *)
Theorem C78_part_refuted : forall txn s a i s' e, (forall m, (txn m <= 4)%nat) -> sound txn s -> (a < 8)%nat -> w_silent s a = SILENT -> (i < txn a)%nat ->
  wrun txn s [(a, AWAKE, at_access (2 + 3 * i) [IRequest])] = (s', e) -> exists r, e = [r] /\ filter (of_module a) (r_frames r) = map (fun j => (a, j, true)) (seq 0 i).
Proof.
  intros txn s a i s' e L Hs La Sa Li R. cbn [wrun] in R. rewrite hit_load in R by exact Li. assert (state_ok AWAKE) as So by (right; reflexivity).
  destruct (pre_effect a AWAKE i s So) as (l1 & s1 & E & T & A & B & C). rewrite E in R. cbn [irqs] in R. injection R as <- <-. eexists. split; [reflexivity|]. cbn [r_frames].
  pose proof (L a). destruct (Hs a La) as (_ & H1 & _). rewrite Sa in H1. rewrite (filter_frames txn L) by exact La. unfold frames_of. cbn [seq flat_map]. rewrite !B, !H1, !C by lia. rewrite Nat.eqb_refl. cbn [andb N.eqb AWAKE SILENT Pos.eqb].
  rewrite !andb_false_r. assert (i = 0 \/ i = 1 \/ i = 2 \/ i = 3)%nat as D by lia. destruct D as [->|[->|[->| ->]]]; cbn [Nat.ltb Nat.leb app map seq]; reflexivity.
Qed.
Print Assumptions C78_part_refuted.
Example C78_part_case : sound two s_off /\ w_silent s_off 0 = SILENT /\ (1 < two 0)%nat /\
  map r_frames (snd (wrun two s_off [(0%nat, AWAKE, at_access 5 [IRequest])])) = [[(0, 0, true); (1, 0, true); (1, 1, true)]]%nat.
Proof. split; [exact s_off_sound|]. split; [vm_compute; reflexivity|]. split; [vm_compute; lia|vm_compute; reflexivity]. Qed.

(** Finding: if a message silences the module that the application is waking up, the module has the state silent and sends. *)
Theorem C78_same_refuted : forall txn s a s' e, (forall m, (txn m <= 4)%nat) -> sound txn s -> (a < 8)%nat -> (0 < txn a)%nat ->
  wrun txn s [(a, AWAKE, at_access 2 [ISwitch a SILENT])] = (s', e) -> w_silent s' a = SILENT /\ filter (of_module a) (frames s') = map (fun j => (a, j, true)) (seq 0 (txn a)).
Proof.
  intros txn s a s' e L Hs La Lt R. cbn [wrun] in R. change 2%nat with (2 + 3 * 0)%nat in R at 1. rewrite hit_load in R by exact Lt. assert (state_ok AWAKE) as So by (right; reflexivity).
  destruct (pre_effect a AWAKE 0 s So) as (l1 & s1 & E & T & A & B & C). rewrite E in R. cbn [irqs] in R.
  destruct (switch_effect txn L a SILENT s1 (or_introl eq_refl)) as (A2 & B2 & C2). set (s2 := switch txn a SILENT s1) in *. clearbody s2. apply (f_equal fst) in R. cbn [fst] in R. subst s'.
  assert (state_ok (wl_to l1)) as Sl by (rewrite T; exact So). destruct (loop_effect a AWAKE (txn a - 0) 0 l1 s2 Sl) as (s3 & R3 & A3 & B3 & C3). rewrite R3. split; [rewrite A3, A2, Nat.eqb_refl; reflexivity|].
  pose proof (L a). rewrite Nat.sub_0_r in *. destruct (Hs a La) as (_ & H1 & _).
  rewrite (filter_frames txn L) by exact La. unfold frames_of. cbn [seq flat_map]. rewrite !B3, !C3 by lia. rewrite T, Nat.eqb_refl. cbn [Nat.leb andb N.eqb AWAKE Pos.eqb Nat.add].
  rewrite !B2, !B by lia. rewrite Nat.eqb_refl, !H1 by lia. cbn [andb].
  assert (txn a = 1 \/ txn a = 2 \/ txn a = 3 \/ txn a = 4)%nat as D by lia. destruct D as [D|[D|[D|D]]]; rewrite D; cbn [Nat.ltb Nat.leb app map seq andb]; reflexivity.
Qed.
Print Assumptions C78_same_refuted.
Example C78_same_case : sound two s_off /\ (0 < two 0)%nat.
Proof. split; [exact s_off_sound|vm_compute; lia]. Qed.
