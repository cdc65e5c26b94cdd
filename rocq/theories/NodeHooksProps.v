(** C80: the hooks an application registers, and the functions it is given, stay with their module. *)
From Verif Require Import Words ErrModel NodeModel NodeSpec NodeEx NodeCritSpec NodeHooksSpec NodeTimeModel NodeHooks.

(** C80: whatever happens after whatever history, every hook that is called is the one registered last for that
    occasion and, where it belongs to a module, for that module *)
Theorem C80_right_hook : forall E ops s h o s' new,
  hooked E ops s h -> step E o s = Ret (tt, s') -> added s s' new -> Forall (right_hook h) new.
Proof. exact hooks_right. Qed.
Print Assumptions C80_right_hook.

(** C80: a process request calls the request hooks of all configured modules that have one, each once, in table order;
    nothing else calls them *)
Theorem C80_request_hooks : forall E ops s h o s' new,
  hooked E ops s h -> step E o s = Ret (tt, s') -> added s s' new ->
  request_calls new = if is_request o then expected_calls h (nmod s) else [].
Proof. exact calls_of_request. Qed.
Print Assumptions C80_request_hooks.

(** C80: a registration is accepted exactly when the table has an entry with that type and number, and changes nothing otherwise *)
Theorem C80_registration : forall k type nr cb s, exists e s',
  set_image_cb k type nr cb s = Ret (e, s') /\ (e = ERR_OK <-> exists p, named s type nr = Some p) /\ (named s type nr = None -> s' = s).
Proof. exact register_result. Qed.
Print Assumptions C80_registration.

(** C80: the function given out for a type returns, whenever it is called later, the time of the last valid image of
    the entry the type named when it was given out (0 before the first); for an unknown type the pointer is not touched *)
Theorem C80_time_function : forall E ops s type old, reached E ops s -> env_ok E ->
  match of_type s type with
  | None => time_function E type old s = (E_TYPE_NOT_FOUND, old)
  | Some p => exists f, time_function E type old s = (ERR_OK, f) /\
      forall later s', run E later s = Ret (tt, s') -> f s' = last_valid p (n_log s') 0
  end.
Proof. exact time_function_spec. Qed.
Print Assumptions C80_time_function.

(** the registered hooks, computed along a run; every reachable state has them *)
Fixpoint hooks_run (E : env) (ops : list op) (s : node) (h : hooks) : hooks :=
  match ops with
  | [] => h
  | o :: t => match step E o s with Ret (_, s') => hooks_run E t s' (hooks_after s o h) | _ => h end
  end.
Lemma hooked_run E ops : forall pre s h s', hooked E pre s h -> run E ops s = Ret (tt, s') -> hooked E (pre ++ ops) s' (hooks_run E ops s h).
Proof.
  induction ops as [|o ops IH]; intros pre s h s' H R; cbn [run hooks_run] in *.
  - cbn in R. injection R as <-. rewrite app_nil_r. exact H.
  - unfold bind in R. destruct (step E o s) as [[[] s1]| |] eqn:St; try discriminate.
    replace (pre ++ o :: ops) with ((pre ++ [o]) ++ ops) by (rewrite <- app_assoc; reflexivity). apply IH; auto. econstructor; eauto.
Qed.
Lemma every_state_hooked E ops s : reached E ops s -> exists h, hooked E ops s h.
Proof. intros (s0 & B & R). exists (hooks_run E ops s0 no_hooks). apply (hooked_run E ops [] s0 no_hooks s); auto. constructor. exact B. Qed.
Lemma hooked_after ops : fine ops = true -> hooked E0 ops (after ops) (hooks_run E0 ops boot0 no_hooks).
Proof.
  intro F. unfold after, fine in *. pose proof boot0_ok as B0. revert F B0. generalize boot0. clear. intros b F B0.
  destruct (run E0 ops b) as [[[] s]| |] eqn:R; try discriminate. exact (hooked_run E0 ops [] b no_hooks s (HK_start E0 b B0) R).
Qed.
Definition mod1 : list byte := [109; 111; 100; 49; 0].
Definition mod2 : list byte := [109; 111; 100; 50; 0].

(** Module 2 has a hook for valid images and one for requests, and a time function; then its number is changed from 20 to 40 and
    a valid cycle follows: both hooks run, and the function returns the time. *)
Example C80_case :
  let pre := add2 ++ [OpImageCb CbValid mod2 20 (Some 71); OpImageCb CbRequest mod2 20 (Some 72); OpImageCb CbNotValid mod1 10 (Some 73); OpSetNr mod2 40 20] in
  let ops := pre ++ [request 1 5; rx_frame mo_2_0 40 0 (repeat 7 8); rx_frame mo_2_1 40 1 (repeat 7 8)] in
  exists h s s' new, hooked E0 ops s h /\ step E0 (request 1 15) s = Ret (tt, s') /\ added s s' new /\
    hk_valid h 1 = Some 71 /\ hk_request h 1 = Some 72 /\ hk_invalid h 0 = Some 73 /\
    In (EvVerdict 1 true (Some 71) 15) new /\ In (EvVerdict 0 false (Some 73) 15) new /\ request_calls new = [(1%nat, 72)] /\
    fst (time_function E0 mod2 (fun _ => 9) s) = ERR_OK /\ snd (time_function E0 mod2 (fun _ => 9) s) s' = 15.
Proof.
  cbn zeta. set (ops := _ ++ [request 1 5; _; _]).
  exists (hooks_run E0 ops boot0 no_hooks), (after ops), (after (ops ++ [request 1 15])), (delta ops [request 1 15]).
  split; [apply hooked_after; vm_compute; reflexivity|]. ex; vm_compute; tauto.
Qed.
