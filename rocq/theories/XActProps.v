(** C86: the query li_can_slv_xload_active. *)
From Verif Require Import Words ErrModel NodeModel LookModel LookSpec XBufModel XBufSpec AsyncSpec XloadModel XloadSpec XloadProofs XloadRun XloadProps XActSpec XAct.

(** The query always answers and changes nothing, inside of handlers (whatever component they got) and outside; after the start it
    answers no. *)
Theorem C86_query : forall size t s, exists b, acall_run size t AActive s = Some (AIs b, s, []) /\ (b = true <-> active size s).
Proof.
  intros size t s. cbn [acall_run]. rewrite xbind_get. unfold xret. eexists. split; [reflexivity|]. rewrite active_eq. destruct (x_prog s); split; congruence.
Qed.
Print Assumptions C86_query.
Theorem C86_initially : forall size, ~ active size (xst_zero size).
Proof. intro size. rewrite active_eq. discriminate. Qed.
Print Assumptions C86_initially.

(** After every operation the answer is yes iff no end was sent during it and either the operation begins a transfer or the answer was yes
    and no end was received. *)
Theorem C86_step : forall size s o e s' obs, xl_step size o s = Some (e, s', obs) ->
  (active size s' <-> ~ end_sent obs /\ (begins o \/ active size s /\ ~ end_received o)).
Proof.
  intros size s o e s' obs H. rewrite !active_eq, end_sent_b. destruct (step_flag _ _ _ _ _ _ H) as (A & B & C). destruct (begins_dec _ _ _ _ _ _ H) as [Db De].
  destruct Db as [Db|Db].
  - rewrite (A Db). destruct (existsb is_end obs); split; [discriminate|intros [X _]; congruence|intros _; split; [discriminate|auto]|reflexivity].
  - destruct De as [De|De].
    + rewrite (B De). split; [discriminate|]. intros [_ [X|[_ X]]]; contradiction.
    + rewrite (C Db De). destruct (existsb is_end obs); split; [discriminate|intros [X _]; congruence|intro X; split; [discriminate|auto]|]. intros [_ [X|[X _]]]; [contradiction|exact X].
Qed.
Print Assumptions C86_step.

(** For every history from the start: the answer is yes iff some operation began a transfer and since then (this operation included) no end
    was sent, and none was received after it. *)
Lemma from_state size ops : forall s es s' obs, xl_run size ops s = Some (es, s', obs) ->
  (active size s' <-> (active size s /\ ~ end_sent obs /\ Forall (fun o => ~ end_received o) ops) \/
     exists a o b ea sa oa eb ob, ops = a ++ o :: b /\ begins o /\ xl_run size a s = Some (ea, sa, oa) /\ xl_run size (o :: b) sa = Some (eb, s', ob) /\
       ~ end_sent ob /\ Forall (fun o => ~ end_received o) b).
Proof.
  assert (App : forall x y, end_sent (x ++ y) <-> end_sent x \/ end_sent y).
  { intros x y. rewrite !end_sent_b, existsb_app. apply orb_true_iff. }
  induction ops as [|o ops IH]; intros s es s' obs H.
  - cbn [xl_run] in H. injection H as <- <- <-. split; [intro X; left; split; [exact X|]; split; [rewrite end_sent_b; discriminate|constructor]|].
    intros [[X _]|(a & o & b & ea & sa & oa & eb & ob & E & _)]; [exact X|]. destruct a; discriminate E.
  - pose proof H as H0. cbn [xl_run] in H. apply xbind_inv in H as (e & s1 & o1 & o2 & E1 & H & ->). apply xbind_inv in H as (es2 & s2 & o3 & o4 & E2 & H & ->). injection H as <- <- <-. rewrite app_nil_r in *.
    rewrite (IH _ _ _ _ E2), (C86_step _ _ _ _ _ _ E1), App. split.
    + intros [((Ne & [Bg|[Ac Nr]]) & Ne2 & F)|(a & o' & b & ea & sa & oa & eb & ob & -> & Bg & Ra & Rb & Ne & F)].
      * right. eexists [], o, ops, [], s, [], _, (o1 ++ o3). split; [reflexivity|]. split; [exact Bg|]. split; [reflexivity|]. split; [exact H0|]. split; [rewrite App; tauto|exact F].
      * left. split; [exact Ac|]. split; [tauto|]. constructor; assumption.
      * right. exists (o :: a), o', b, (e :: ea), sa, (o1 ++ oa), eb, ob. split; [reflexivity|]. split; [exact Bg|]. split; [|auto].
        cbn [xl_run]. rewrite (xbind_some _ _ _ _ _ _ E1), (xbind_some _ _ _ _ _ _ Ra). unfold xret. rewrite app_nil_r. reflexivity.
    + intros [(Ac & Ne & F)|(a & o' & b & ea & sa & oa & eb & ob & E & Bg & Ra & Rb & Ne & F)].
      * inversion F as [|? ? F1 F2]. subst. left. split; [|split; [tauto|exact F2]]. split; [tauto|]. right. auto.
      * destruct a as [|o0 a].
        -- cbn [app] in E. injection E as <- <-. cbn [xl_run] in Ra. injection Ra as <- <- <-. assert (ob = o1 ++ o3) as -> by congruence. rewrite App in Ne. left. split; [|split; [tauto|exact F]]. split; [tauto|]. left. exact Bg.
        -- cbn [app] in E. injection E as <- ->. cbn [xl_run] in Ra. rewrite (xbind_some _ _ _ _ _ _ E1) in Ra. destruct (xbind (xl_run size a) _ s1) as [[[ea1 sa1] oa1]|] eqn:Q; [|discriminate Ra]. injection Ra as <- <- <-.
           apply xbind_inv in Q as (ea2 & sa2 & oa2 & oa3 & Q1 & Q2 & ->). injection Q2 as <- <- <-.
           right. exists a, o', b, ea2, sa2, oa2, eb, ob. auto 10.
Qed.
Theorem C86_activity : forall size ops es s obs, xl_run size ops (xst_zero size) = Some (es, s, obs) ->
  (active size s <-> exists a o b ea sa oa eb ob, ops = a ++ o :: b /\ begins o /\
     xl_run size a (xst_zero size) = Some (ea, sa, oa) /\ xl_run size (o :: b) sa = Some (eb, s, ob) /\
     ~ end_sent ob /\ Forall (fun o => ~ end_received o) b).
Proof.
  intros size ops es s obs H. rewrite (from_state _ _ _ _ _ _ H). split; [|auto]. intros [(X & _)|X]; [|exact X]. exfalso. exact (C86_initially size X).
Qed.
Print Assumptions C86_activity.

(** a download up to its blocks: active; one more message, the termination from the master: not active *)
Example C86_case : exists es s obs, xl_run 32 (pre41 ++ dl_ops tab41 sil41 10 name42 [0x12; 0x34] [0; 1; 2; 3] 8 5 [blk42a]) (xst_zero 32) = Some (es, s, obs) /\ active 32 s /\
  exists e s' o, xl_step 32 (LRx tab41 sil41 10 [0x1C; 0; 0; 0; 0; 0; 0; 0] nothing) s = Some (e, s', o) /\ ~ active 32 s'.
Proof.
  eexists _, _, _. split; [vm_compute; reflexivity|]. split; [rewrite active_eq; reflexivity|]. eexists _, _, _. split; [vm_compute; reflexivity|]. rewrite active_eq. discriminate.
Qed.
