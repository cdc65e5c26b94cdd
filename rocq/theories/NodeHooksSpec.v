(** Which application hooks are registered, told from the history alone.  A hook of a module belongs to the
    table entry that carried the type and the number at the time of the registration, and stays with it. *)
From Verif Require Import Words ErrModel NodeModel NodeSpec NodeCritSpec.

Record hooks := Hooks {
  hk_valid : nat -> option N;     (* li_can_slv_sync_set_process_image_valid_cbk *)
  hk_invalid : nat -> option N;   (* li_can_slv_sync_set_process_image_not_valid_cbk *)
  hk_request : nat -> option N;   (* li_can_slv_sync_set_process_request_cbk *)
  hk_image : option N;            (* the whole image is valid *)
  hk_first : option N;            (* first process request *)
  hk_status : option N;           (* first status request *)
  hk_time : option N;             (* system time *)
  hk_reset : option N;            (* factory reset *)
  hk_silent : option N            (* a module was switched silent or awake *)
}.
Definition no_hooks : hooks := Hooks (fun _ => None) (fun _ => None) (fun _ => None) None None None None None None.
Definition at_entry (f : nat -> option N) (p : nat) (cb : option N) : nat -> option N := fun q => if (q =? p)%nat then cb else f q.
(** registrations; registering for a type and number no entry has changes nothing *)
Definition hooks_after (s : node) (o : op) (h : hooks) : hooks :=
  match o with
  | OpImageCb k type nr cb =>
      match named s type nr with
      | None => h
      | Some p =>
          match k with
          | CbValid => Hooks (at_entry (hk_valid h) p cb) (hk_invalid h) (hk_request h) (hk_image h) (hk_first h) (hk_status h) (hk_time h) (hk_reset h) (hk_silent h)
          | CbNotValid => Hooks (hk_valid h) (at_entry (hk_invalid h) p cb) (hk_request h) (hk_image h) (hk_first h) (hk_status h) (hk_time h) (hk_reset h) (hk_silent h)
          | CbRequest => Hooks (hk_valid h) (hk_invalid h) (at_entry (hk_request h) p cb) (hk_image h) (hk_first h) (hk_status h) (hk_time h) (hk_reset h) (hk_silent h)
          end
      end
  | OpProcessCb cb => Hooks (hk_valid h) (hk_invalid h) (hk_request h) cb (hk_first h) (hk_status h) (hk_time h) (hk_reset h) (hk_silent h)
  | OpFirstReqCb cb => Hooks (hk_valid h) (hk_invalid h) (hk_request h) (hk_image h) cb (hk_status h) (hk_time h) (hk_reset h) (hk_silent h)
  | OpSysCb st t r => Hooks (hk_valid h) (hk_invalid h) (hk_request h) (hk_image h) (hk_first h) st t r (hk_silent h)
  | OpSilentCb cb => Hooks (hk_valid h) (hk_invalid h) (hk_request h) (hk_image h) (hk_first h) (hk_status h) (hk_time h) (hk_reset h) cb
  | _ => h
  end.
(** [hooked E ops s h]: after [ops] the node is in state [s] and [h] is registered *)
Inductive hooked (E : env) : list op -> node -> hooks -> Prop :=
| HK_start s : booted E s -> hooked E [] s no_hooks
| HK_step ops s h o s' : hooked E ops s h -> step E o s = Ret (tt, s') -> hooked E (ops ++ [o]) s' (hooks_after s o h).

(** an event calls the hook registered for it *)
Definition right_hook (h : hooks) (e : event) : Prop :=
  match e with
  | EvVerdict p v cb _ => cb = if v then hk_valid h p else hk_invalid h p
  | EvImage cb _ => cb = hk_image h
  | EvProcReq p c => hk_request h p = Some c
  | EvFirstReq cb => cb = hk_first h
  | EvFirstStatus cb => cb = hk_status h
  | EvTime c _ _ _ => hk_time h = Some c
  | EvReset c _ => hk_reset h = Some c
  | EvSilent c _ _ _ _ => hk_silent h = Some c
  | EvTx _ _ _ _ | EvType _ _ | EvRate _ => True
  end.
(** the calls of the request hooks of the modules, in order *)
Fixpoint request_calls (l : list event) : list (nat * N) :=
  match l with
  | [] => []
  | EvProcReq p c :: t => (p, c) :: request_calls t
  | _ :: t => request_calls t
  end.
Definition expected_calls (h : hooks) (n : nat) : list (nat * N) :=
  flat_map (fun p => match hk_request h p with Some c => [(p, c)] | None => [] end) (seq 0 n).
