(** C82: the period of the process requests while requests arrive by interrupt. *)
From Verif Require Import Words WordsFacts NodeModel PerIrqModel.

(** the functions without interrupts *)
Definition get_alone (pm : N) (s : per) : N * per := get_per pm [] [] [] s.
Definition trig_alone (pm now : N) (s : per) : per := trig_per true pm now [] [] [] [] s.
(** they are those of the node model *)
Definition per_of (s : node) : per := Per (y_per (n_sync s)) (y_ts (n_sync s)).
Lemma trig_agrees E now s s' : trigger_period E now s = Ret (tt, s') -> per_of s' = trig_alone (PMAX E) now (per_of s).
Proof.
  intro H. unfold trigger_period, modify in H. injection H as <-. unfold per_of, trig_alone, trig_per, preqs. cbn [fold_left p_per p_ts].
  destruct s as [? ? ? ? ? ?]; cbn. match goal with |- context [if ?a <? ?b then _ else _] => idtac end.
  unfold upd_sync. cbn. destruct (u16 (PMAX E) <? _); destruct (y_per _ <? _); reflexivity.
Qed.
Lemma get_agrees E s p s' : get_period E s = Ret (p, s') -> get_alone (PMAX E) (per_of s) = (p, per_of s').
Proof.
  unfold get_period, bind, gets. intro H. unfold get_alone, get_per, preqs, per_of. cbn [fold_left p_per p_ts].
  destruct (PMAX E <? y_per (n_sync s)); cbn in H; injection H as <- <-; reflexivity.
Qed.

(** What a request measures: the time since the request before it, whatever was stored. *)
Theorem C82_measured_partial i s t1 t2 : preqs (i ++ [t1; t2]) s = Per (u32_sub t2 t1) t2.
Proof. unfold preqs. rewrite fold_left_app. reflexivity. Qed.
Print Assumptions C82_measured_partial.

(** Requests before the function reads the period, or after it: the result is bounded and that of the function alone. *)
Theorem C82_get_partial pm i1 s : get_per pm i1 [] [] s = get_alone pm (preqs i1 s) /\ fst (get_per pm i1 [] [] s) = N.min (p_per (preqs i1 s)) pm.
Proof.
  split; [reflexivity|]. unfold get_per, preqs. cbn [fold_left]. destruct (N.ltb_spec pm (p_per (fold_left preq i1 s))); cbn [fst p_per]; lia.
Qed.
Print Assumptions C82_get_partial.

(** Requests before the function, and one request between the calculation and the comparison: the effect is that of the function
    followed by the request.  [e1]: time from the last request before to the call, [e2]: from the call to the interrupting
    request. *)
Theorem C82_trigger_partial cf pm now i1 s t e1 e2 :
  now = u32 (p_ts (preqs i1 s) + e1) -> t = u32 (p_ts (preqs i1 s) + e1 + e2) -> e1 + e2 < 4294967296 -> p_ts (preqs i1 s) < 4294967296 ->
  trig_per cf pm now i1 [] [] [] s = trig_alone pm now (preqs i1 s) /\
  trig_per cf pm now i1 [] [t] [] s = preq (trig_alone pm now (preqs i1 s)) t.
Proof.
  intros Hn Ht B BT. unfold trig_per, trig_alone, trig_per. cbn [preqs fold_left].
  set (s1 := preqs i1 s) in *. clearbody s1. destruct s1 as [p ts]. cbn [p_ts p_per preq] in *.
  assert (D : u32_sub now ts = e1) by (subst now; unfold u32_sub, u32; lia).
  assert (D2 : u32_sub t ts = e1 + e2) by (subst t; unfold u32_sub, u32; lia).
  replace (if cf then ts else ts) with ts by (destruct cf; reflexivity). rewrite D, D2. split; [reflexivity|].
  destruct (N.ltb_spec (e1 + e2) (if u16 pm <? e1 then u16 pm else e1)) as [L|L].
  - exfalso. destruct (N.ltb_spec (u16 pm) e1); lia.
  - unfold preq. destruct (p <? _); cbn [p_ts p_per]; rewrite D2; reflexivity.
Qed.
Print Assumptions C82_trigger_partial.

Example C82_case :
  let s := Per 10 1000 in
  get_per 50 [1080] [] [] s = (50, Per 50 1080) /\
  trig_per true 50 1025 [] [] [1030] [] s = Per 30 1030 /\ trig_alone 50 1025 s = Per 25 1000.
Proof. repeat split. Qed.
Print Assumptions C82_case.

(** Refuted for every state in which the period is within the maximum: a request after the comparison makes the getter return a
    period above the maximum. *)
Theorem C82_get_refuted pm s : pm < 4294967295 -> p_ts s < 4294967296 -> p_per s <= pm -> exists t, pm < fst (get_per pm [] [t] [] s).
Proof.
  intros B BT H. exists (u32 (p_ts s + 4294967295)). unfold get_per, preqs. cbn [fold_left]. rewrite (proj2 (N.ltb_ge _ _) H). cbn.
  unfold u32_sub, u32. lia.
Qed.
Print Assumptions C82_get_refuted.
(** Also if the period was above the maximum and the function has just limited it. *)
Theorem C82_limited_refuted pm s : pm < 4294967295 -> p_ts s < 4294967296 -> pm < p_per s -> exists t, pm < fst (get_per pm [] [] [t] s).
Proof.
  intros B BT H. exists (u32 (p_ts s + 4294967295)). unfold get_per, preqs. cbn [fold_left]. rewrite (proj2 (N.ltb_lt _ _) H). cbn.
  unfold u32_sub, u32. lia.
Qed.
Print Assumptions C82_limited_refuted.

(** Refuted: a request between the reading of the clock and of the time stamp, one tick later.  The period is the maximum, although
    the function before the request and after the request both leave a smaller one. *)
Theorem C82_wrap_refuted pm ts e p :
  pm < 65536 -> ts < 4294967296 -> e + 1 < pm -> p < pm ->
  let s := Per p ts in let now := u32 (ts + e) in let t := u32 (ts + e + 1) in
  p_per (trig_per true pm now [] [t] [] [] s) = pm /\
  p_per (preq (trig_alone pm now s) t) < pm /\ p_per (trig_alone pm t (preq s t)) < pm.
Proof.
  intros B BT L LP s now t.
  assert (U : u16 pm = pm) by (unfold u16; lia).
  assert (D : u32_sub now t = 4294967295) by (subst now t; unfold u32_sub, u32; lia).
  assert (D1 : u32_sub t ts = e + 1) by (subst t; unfold u32_sub, u32; lia).
  assert (D2 : u32_sub now ts = e) by (subst now; unfold u32_sub, u32; lia).
  assert (D3 : u32_sub t t = 0) by (subst t; unfold u32_sub, u32; lia).
  unfold trig_alone, trig_per, preqs, preq. cbn [fold_left]. unfold s. cbn [p_per p_ts]. rewrite U, D, D1, D2, D3.
  replace (pm <? 4294967295) with true by (symmetry; apply N.ltb_lt; lia).
  replace (e + 1 <? pm) with true by (symmetry; apply N.ltb_lt; lia).
  replace (pm <? e) with false by (symmetry; apply N.ltb_ge; lia).
  replace (pm <? 0) with false by (symmetry; apply N.ltb_ge; lia).
  replace (e + 1 <? 0) with false by (symmetry; apply N.ltb_ge; lia).
  cbn [p_per p_ts]. split; [reflexivity|]. split; [|lia]. destruct (p <? e); cbn [p_per p_ts]; rewrite D1; lia.
Qed.
Print Assumptions C82_wrap_refuted.

(** Refuted: a request between the comparison and the store.  The period measured by the request is overwritten: the distance [e + f] of
    the last two requests is reported as [e]. *)
Theorem C82_lost_refuted cf pm ts e f p :
  pm < 65536 -> ts < 4294967296 -> p < e -> e <= pm -> 0 < f -> e + f < 4294967296 ->
  let s := Per p ts in let now := u32 (ts + e) in let t := u32 (ts + e + f) in
  trig_per cf pm now [] [] [] [t] s = Per e t /\
  p_per (preq (trig_alone pm now s) t) = e + f.
Proof.
  intros B BT LP LE LF LS s now t.
  assert (U : u16 pm = pm) by (unfold u16; lia).
  assert (D1 : u32_sub t ts = e + f) by (subst t; unfold u32_sub, u32; lia).
  assert (D2 : u32_sub now ts = e) by (subst now; unfold u32_sub, u32; lia).
  unfold trig_alone, trig_per, preqs, preq. cbn [fold_left]. unfold s. cbn [p_per p_ts].
  replace (if cf then ts else ts) with ts by (destruct cf; reflexivity). rewrite U, D2.
  replace (pm <? e) with false by (symmetry; apply N.ltb_ge; lia).
  replace (p <? e) with true by (symmetry; apply N.ltb_lt; lia). cbn [p_per p_ts]. split; [reflexivity|exact D1].
Qed.
Print Assumptions C82_lost_refuted.

(** Refuted: two requests between the calculation and the comparison.  The time since a request that is no longer the last one is
    reported, although the last two requests are one tick apart. *)
Theorem C82_two_refuted cf pm ts e p :
  pm < 65536 -> ts < 4294967296 -> 1 < e -> e <= pm ->
  let s := Per p ts in let now := u32 (ts + e) in let t2 := u32 (ts + e + 1) in
  trig_per cf pm now [] [] [now; t2] [] s = Per e t2 /\
  p_per (preqs [now; t2] (trig_alone pm now s)) = 1.
Proof.
  intros B BT L1 LE s now t2.
  assert (U : u16 pm = pm) by (unfold u16; lia).
  assert (D1 : u32_sub t2 now = 1) by (subst t2 now; unfold u32_sub, u32; lia).
  assert (D2 : u32_sub now ts = e) by (subst now; unfold u32_sub, u32; lia).
  unfold trig_alone, trig_per, preqs, preq. cbn [fold_left]. unfold s. cbn [p_per p_ts].
  replace (if cf then ts else ts) with ts by (destruct cf; reflexivity). rewrite U, D1, D2.
  replace (pm <? e) with false by (symmetry; apply N.ltb_ge; lia).
  replace (1 <? e) with true by (symmetry; apply N.ltb_lt; lia). cbn [p_per p_ts]. split; reflexivity.
Qed.
Print Assumptions C82_two_refuted.
