(** C68: the library cannot be driven into undefined behaviour from the bus. *)
From Verif Require Import Words ErrModel NodeModel NodeLib NodeSpec NodeSafeSpec NodeSafe NodeCfg NodeEx.

(** After a successful start, every sound history (any frames that pass the filters, any system messages, number and
    type changes, callbacks, errors, any hardware failures) executes without undefined behaviour. *)
Theorem C68_no_undefined_partial : forall E mem st orc rate s0 ops, env_ok E -> fresh_store st ->
  can_init E rate (static_node E mem st orc) = Ret (ERR_OK, s0) -> sound_run E (map (@length byte) mem) s0 ops -> run E ops s0 <> Undef.
Proof. intros E mem st orc rate s0 ops HE Hf B Hs. eapply safe_boot; eauto. Qed.
(** Without number and type changes it also returns: there is a state after it. *)
Theorem C68_returns_partial : forall E mem st orc rate s0 ops, env_ok E -> fresh_store st ->
  can_init E rate (static_node E mem st orc) = Ret (ERR_OK, s0) -> sound_run E (map (@length byte) mem) s0 ops -> Forall (plain E) ops ->
  exists s, run E ops s0 = Ret (tt, s).
Proof.
  intros E mem st orc rate s0 ops HE Hf B Hs Fp. assert (run E ops s0 <> Undef) as H1 by (eapply safe_boot; eauto).
  assert (run E ops s0 <> Hang) as H2. { eapply (safe_ends E HE ops [] s0); auto. exists s0. split; [exists mem, st, orc, rate; exact B|reflexivity]. }
  destruct (run E ops s0) as [[[] s]| |]; [eauto|congruence|congruence].
Qed.

(** *** a concrete history *)
Definition rxk : rxconv := fun can app dlc => (map (fun i => nth i (if N.of_nat i <? dlc then can else app) 0) (seq 0 (length app)), 0).
Lemma rxk_ok : ~ resizes rxk.
Proof. intros (can & app & dlc & H). apply H. unfold rxk. cbn [fst]. rewrite map_length, seq_length. reflexivity. Qed.
Definition rk := RxO 0 8 (Some rxk) 0 (Some rxk) 0.
Definition kdesc (k : N) (r t : nat) : modl := Modl [109; 111; 100; k; 0] 0 r 0 t 0 (repeat rk 4) (repeat tx8 4).
Lemma along_after (P : node -> op -> Prop) pre o rest : fine (pre ++ [o]) = true -> P (after pre) o -> along E0 P (after (pre ++ [o])) rest -> along E0 P (after pre) (o :: rest).
Proof.
  intros Hf Hp Hr. split; [exact Hp|]. intros s' Hs. rewrite (after_step pre o Hf) in Hs. injection Hs as <-. exact Hr.
Qed.
Lemma kfits n : (n < 16)%nat -> rx_fits (map (@length byte) mem0) (set_r_addr rk n).
Proof.
  intro L. split; [exists rxk; split; [reflexivity|apply rxk_ok]|]. split; [exists rxk; split; [reflexivity|apply rxk_ok]|]. split; [exact L|]. cbn. lia.
Qed.
Lemma tfits n : (n < 16)%nat -> tx_fits (map (@length byte) mem0) (set_t_addr tx8 n).
Proof.
  intro L. split; [discriminate|]. split; [discriminate|]. split; [cbn; lia|]. cbn [t_addr set_t_addr]. exists 8%nat. split; [|lia].
  do 16 (destruct n as [|n]; [reflexivity|]). lia.
Qed.
Definition change49 : op := sysmsg 10 [49; 109; 111; 100; 57; 30; 116; 222].
Definition safe_ops : list op :=
  [OpAdd (kdesc 49 1 2) 10 [0;0;0;0]%nat [4;5;0;0]%nat; OpTypeAdd [109;111;100;49;0] (kdesc 57 2 1) [1;2;3;0]%nat [6;0;0;0]%nat None;
   request 1 5; rx_frame mo_1_0 10 0 [1;2;3;4;5;6;7;8]; change49; OpError 5 1 7; OpWrite 6 [9;9;9;9;9;9;9;9]; request 1 6; sysmsg 10 [200;0;0;0;0;0;0;0]].
Ltac four i := destruct i as [|[|[|[|i]]]]; try lia.
Lemma safe_ops_sound : sound_run E0 (map (@length byte) mem0) boot0 safe_ops.
Proof.
  unfold sound_run. assert (boot0 = after []) as -> by (unfold after; cbn [run ret]; reflexivity). unfold safe_ops.
  apply along_after; [vm_compute; reflexivity| |].
  { split; [vm_compute; exact I|]. cbv beta iota. split; [reflexivity|]. split; [intros i L; cbn in L; four i; apply (kfits 0); lia|].
    split; [intros i L; cbn in L; four i; [apply (tfits 4)|apply (tfits 5)]; lia|]. intro i. unfold rxat. do 4 (destruct i as [|i]; [reflexivity|]). destruct i; reflexivity. }
  apply along_after; [vm_compute; reflexivity| |].
  { split; [vm_compute; exact I|]. cbv beta iota. split; [reflexivity|]. split; [cbn; lia|]. split; [cbn; lia|]. split.
    - intros i L. four i; [apply (kfits 1)|apply (kfits 2)|apply (kfits 3)|apply (kfits 0)]; lia.
    - intros i L. cbn in L. four i. apply (tfits 6); lia. }
  repeat (apply along_after; [vm_compute; reflexivity|split; [vm_compute; exact I|]; vm_compute; first [exact I|reflexivity]|]). exact I.
Qed.
Example C68_no_undefined_partial_case : fresh_store slot_empty /\ can_init E0 250 (static_node E0 mem0 slot_empty []) = Ret (ERR_OK, boot0) /\ sound_run E0 (map (@length byte) mem0) boot0 safe_ops.
Proof. split; [left; reflexivity|]. split; [vm_compute; reflexivity|]. apply safe_ops_sound. Qed.
Definition safe_plain : list op :=
  [OpAdd (kdesc 49 1 2) 10 [0;0;0;0]%nat [4;5;0;0]%nat; request 1 5; rx_frame mo_1_0 10 0 [1;2;3;4;5;6;7;8]; OpError 5 1 7; OpWrite 4 [9;9;9;9;9;9;9;9];
   request 1 6; sysmsg 10 [200;0;0;0;0;0;0;0]; sysmsg 10 [33; 109; 111; 100; 49; 30; 116; 222]; request 1 7].
Example C68_returns_partial_case : fresh_store slot_empty /\ can_init E0 250 (static_node E0 mem0 slot_empty []) = Ret (ERR_OK, boot0) /\
  sound_run E0 (map (@length byte) mem0) boot0 safe_plain /\ Forall (plain E0) safe_plain /\ m_type (modat (after safe_ops) 0) = [109; 111; 100; 57; 0] /\ silat (after safe_plain) 0 = SILENT.
Proof.
  split; [left; reflexivity|]. split; [vm_compute; reflexivity|]. split; [|split; [apply plainb_ok; vm_compute; reflexivity|split; vm_compute; reflexivity]].
  unfold sound_run. assert (boot0 = after []) as -> by (unfold after; cbn [run ret]; reflexivity). unfold safe_plain.
  apply along_after; [vm_compute; reflexivity| |].
  { split; [vm_compute; exact I|]. cbv beta iota. split; [reflexivity|]. split; [intros i L; cbn in L; four i; apply (kfits 0); lia|].
    split; [intros i L; cbn in L; four i; [apply (tfits 4)|apply (tfits 5)]; lia|]. intro i. unfold rxat. do 4 (destruct i as [|i]; [reflexivity|]). destruct i; reflexivity. }
  repeat (apply along_after; [vm_compute; reflexivity|split; [vm_compute; exact I|]; vm_compute; first [exact I|reflexivity]|]). exact I.
Qed.

(** With the queue build, frames from the bus alone lead to undefined behaviour: system messages with a wrong length fill
    the error queue (default size 16), two process requests read two errors, one more bad message writes past the queue. *)
Definition bad_dlc : op := OpFrame MO_SYS1 ID_SYS 7 [] 0.
Definition queue_ops : list op := repeat bad_dlc 16 ++ [request 1 5; request 1 6; bad_dlc].
Definition queue16 : errstore := EsQueue 16 (eq_reset 16).
Definition bootq : node := match can_init E0 250 (static_node E0 mem0 queue16 []) with Ret (_, s) => s | _ => static0 end.
Definition busb_1 (s : node) (o : op) : bool :=
  match o with OpFrame mo id _ _ _ => match nth mo (h_filt (n_hw s)) None with Some (f, m) => N.land (N.lxor id f) m =? 0 | None => false end | _ => false end.
Fixpoint busb (E : env) (s : node) (ops : list op) : bool :=
  match ops with [] => true | o :: r => busb_1 s o && match step E o s with Ret (_, s') => busb E s' r | _ => true end end.
Lemma busb_ok E ops : forall s, busb E s ops = true -> along E from_bus s ops.
Proof.
  induction ops as [|o ops IH]; intros s H; cbn [along busb] in *; [exact I|]. apply andb_prop in H. destruct H as [H1 H2]. split.
  - unfold busb_1 in H1. destruct o; try discriminate. unfold from_bus, passes. destruct (nth mo (h_filt (n_hw s)) None) as [[f m]|]; [|discriminate]. apply N.eqb_eq, H1.
  - intros s' Hs. rewrite Hs in H2. auto.
Qed.
Theorem C68_bus_only_refuted : exists E mem st orc rate s0 ops, env_ok E /\ fresh_store st /\ can_init E rate (static_node E mem st orc) = Ret (ERR_OK, s0) /\
  along E from_bus s0 ops /\ run E ops s0 = Undef.
Proof.
  exists E0, mem0, queue16, [], 250, bootq, queue_ops. split; [exact E0_ok|]. split; [right; exists 16%nat; reflexivity|]. split; [vm_compute; reflexivity|].
  split; [apply busb_ok; vm_compute; reflexivity|vm_compute; reflexivity].
Qed.

(** A replacement descriptor with fewer receive objects, all of them usable: after the type change the filter of the
    old receive object is still there and a frame for it calls a missing conversion function. *)
Definition null_desc : modl := Modl [109; 111; 100; 57; 0] 0 0 0 1 0 (repeat rxo0 4) (repeat tx8 4).
Definition null_ops : list op :=
  [OpAdd (kdesc 49 1 2) 10 [0;0;0;0]%nat [4;5;0;0]%nat; OpTypeAdd [109;111;100;49;0] null_desc [0;0;0;0]%nat [6;0;0;0]%nat None; change49; OpFrame mo_1_0 (data_id 10 0) 0 [] 0].
Lemma along_last (P : node -> op -> Prop) pre o : P (after pre) o -> step E0 o (after pre) = Undef -> along E0 P (after pre) [o].
Proof. intros Hp Hs. split; [exact Hp|]. intros s' Q. congruence. Qed.
Theorem C68_type_change_refuted : exists E mem st orc rate s0 ops, env_ok E /\ fresh_store st /\ can_init E rate (static_node E mem st orc) = Ret (ERR_OK, s0) /\
  along E (sound_used E (map (@length byte) mem)) s0 ops /\ run E ops s0 = Undef.
Proof.
  exists E0, mem0, slot_empty, [], 250, boot0, null_ops. split; [exact E0_ok|]. split; [left; reflexivity|]. split; [vm_compute; reflexivity|]. split; [|vm_compute; reflexivity].
  assert (boot0 = after []) as -> by (unfold after; cbn [run ret]; reflexivity). unfold null_ops.
  apply along_after; [vm_compute; reflexivity| |].
  { split; [vm_compute; exact I|]. cbv beta iota. split; [reflexivity|]. split; [intros i L; cbn in L; four i; apply (kfits 0); lia|].
    split; [intros i L; cbn in L; four i; [apply (tfits 4)|apply (tfits 5)]; lia|]. intro i. unfold rxat. do 4 (destruct i as [|i]; [reflexivity|]). destruct i; reflexivity. }
  apply along_after; [vm_compute; reflexivity| |].
  { split; [vm_compute; exact I|]. cbv beta iota. split; [reflexivity|]. split; [intros i L; cbn in L; lia|].
    split; [intros i L; cbn in L; four i; apply (tfits 6); lia|]. intro i. unfold rxat. do 4 (destruct i as [|i]; [reflexivity|]). destruct i; reflexivity. }
  apply along_after; [vm_compute; reflexivity| |].
  { split; [vm_compute; exact I|]; vm_compute; reflexivity. }
  apply along_last; [|vm_compute; reflexivity]. split; [vm_compute; exact I|]; vm_compute; reflexivity.
Qed.

Print Assumptions C68_no_undefined_partial.
Print Assumptions C68_returns_partial.
Print Assumptions C68_bus_only_refuted.
Print Assumptions C68_type_change_refuted.

(** C31, the other half: after a sound history the function that changes number and identifiers is undefined for the pairs
    of type and number no entry has, and only for those. *)
Lemma safe_after E mem ops : env_ok E -> forall s s', SI E (map (@length byte) mem) None s -> NodeInv.WF E s -> store_room 0 (n_err s) -> sound_run E (map (@length byte) mem) s ops ->
  run E ops s = Ret (tt, s') -> SI E (map (@length byte) mem) None s' /\ NodeInv.WF E s' /\ store_room 0 (n_err s').
Proof.
  intro HE. induction ops as [|o ops IH]; intros s s' I W R Hs H; cbn [run] in H; [injection H as <-; auto|]. destruct Hs as [Ho Hs].
  pose proof (safe_step E HE _ o s I W R Ho) as K. unfold bind in H. destruct (step E o s) as [[[] s1]| |] eqn:Es; try discriminate. destruct K as [I' R'].
  eapply IH; [exact I'| |exact R'|apply Hs; reflexivity|exact H]. eapply NodeInv.wf_step; eauto.
Qed.
(** what a change of a number by the application leaves alone: the errors, the silent and awake states, the number
    of modules *)
Definition rest_kept (s s' : node) : Prop := n_err s' = n_err s /\ (forall q, silat s' q = silat s q) /\ nmod s' = nmod s.
#[local] Instance rest_kept_pre : NodeLib.Pre rest_kept.
Proof. split; [intro; repeat split; reflexivity|]. intros a b c (A1 & A2 & A3) (B1 & B2 & B3). repeat split; try congruence. Qed.
Lemma set_nth_own (l : list N) i d : set_nth l i (nth i l d) = l.
Proof. revert i. induction l as [|a l IH]; intros [|i]; cbn; auto. f_equal. apply IH. Qed.
Lemma rest_again E pos : pres rest_kept (bind (gets (fun s => silat s pos)) (fun st => set_silent_awake E pos st)).
Proof.
  intros s e s' H. apply bind_inv in H. destruct H as (st & s1 & H1 & H). apply gets_inv in H1. destruct H1 as [-> ->]. unfold set_silent_awake in H. destruct (pos <? MAXM E)%nat; [|apply ret_inv in H; destruct H as [_ ->]; apply NodeLib.pre_refl].
  apply bind_inv in H. destruct H as (u & s1 & H1 & H). apply modify_inv in H1.
  assert (rest_kept s s1) as Q1.
  { subst s1. repeat split; try reflexivity. intro q. unfold silat, upd_cfg, set_n_cfg, set_k_silent. cbn. rewrite set_nth_own. reflexivity. }
  enough (rest_kept s1 s') as Q2 by (eapply NodeLib.pre_trans; eauto).
  revert H. match goal with |- ?m s1 = _ -> _ => enough (pres rest_kept m) as P by (intro H; exact (P _ _ _ H)) end. unfold sync_on, sync_off, tx_data_on, tx_data_off, call_rx. pres_tac; repeat split; reflexivity.
Qed.
Lemma rest_ids E type new actual : pres rest_kept (change_nr_ids E type new actual).
Proof.
  unfold change_nr_ids, tx_data_cnfg, define_shared, define_obj, hw_define, get_async_ctrl_obj, next_free. repeat (simple apply rest_again || pres_tac1); repeat split; reflexivity.
Qed.
Theorem C31_known_partial : forall E mem st orc rate s0 ops s type new actual, env_ok E -> fresh_store st -> can_init E rate (static_node E mem st orc) = Ret (ERR_OK, s0) -> roomy E s0 ->
  sound_run E (map (@length byte) mem) s0 ops -> run E ops s0 = Ret (tt, s) ->
  (step E (OpSetNr type new actual) s = Undef <-> named s type actual = None) /\
  forall p, named s type actual = Some p -> exists s', step E (OpSetNr type new actual) s = Ret (tt, s') /\
    (forall q, m_nr (modat s' q) = if (q =? p)%nat then new else m_nr (modat s q)) /\
    map m_type (tab_of s') = map m_type (tab_of s) /\ rest_kept s s'.
Proof.
  intros E mem st orc rate s0 ops s type new actual HE Hf B Hr0 Hs R. destruct (SI_booted E _ _ _ _ _ _ eq_refl B) as (I0 & W0 & Es).
  destruct (safe_after E mem ops HE s0 s I0 W0 (fresh_room E s0 ltac:(rewrite Es; exact Hf) Hr0) Hs R) as (I & W & Rm).
  assert (named s type actual <> None -> exists e s', change_nr_ids E type new actual s = Ret (e, s')) as K.
  { intro Hn. pose proof (h_change_ids E HE _ type new actual 0%nat s (conj I Hn) Rm) as H. pose proof (NodeSend.ends_change_nr_ids E type new actual s) as N.
    destruct (change_nr_ids E type new actual s) as [[e s']| |]; [eauto|contradiction|contradiction]. }
  split; [split|].
  - intro U. destruct (named s type actual) as [p|] eqn:Hn; [|reflexivity]. destruct (K ltac:(discriminate)) as (e & s' & H). cbn [step] in U. unfold ignore, bind in U. rewrite H in U. discriminate.
  - apply NodeCfg.unknown_nr.
  - intros p Hn. destruct (K ltac:(rewrite Hn; discriminate)) as (e & s' & H). exists s'. split; [cbn [step]; unfold ignore, bind; rewrite H; reflexivity|].
    split; [eapply NodeNr.nr_ids_numbers; eauto|]. split; [exact (proj1 (NodeCnt.types_change_nr_ids E _ _ _ _ _ _ H))|]. exact (rest_ids E _ _ _ _ _ _ H).
Qed.
Print Assumptions C31_known_partial.
Example C31_known_partial_case : fresh_store slot_empty /\ can_init E0 250 (static_node E0 mem0 slot_empty []) = Ret (ERR_OK, boot0) /\ roomy E0 boot0 /\
  sound_run E0 (map (@length byte) mem0) boot0 safe_ops /\ run E0 safe_ops boot0 = Ret (tt, after safe_ops) /\
  named (after safe_ops) [109; 111; 100; 57; 0] 10 = Some 0%nat /\ named (after safe_ops) [109; 111; 100; 49; 0] 10 = None.
Proof.
  split; [left; reflexivity|]. split; [vm_compute; reflexivity|]. split; [exact I|]. split; [apply safe_ops_sound|]. split; [vm_compute; reflexivity|]. split; vm_compute; reflexivity.
Qed.
