(** Specification of the search for the baud rate, in terms of what can be observed: the state reported by
    li_can_slv_reconnect_get_state, mode and rate of the controller, received frames, callbacks. *)
From Verif Require Import Words ReconModel.

(** a search is running *)
Definition searching (s : rec) : Prop := match r_state s with RStartup | ROn | RIdle => True | _ => False end.

(** the driver accepts every mode and rate *)
Definition accepts (h : hwo) : Prop := (forall m, ok_mode h m = true) /\ (forall r, ok_rate h r = true).
Definition ev_accepts (e : rev) : Prop :=
  match e with EStart h _ | EPoll _ h _ _ _ _ | ERx h _ => accepts h | _ => True end.
(** calls of li_can_slv_process that are not interrupted by a reception *)
Definition ev_atomic (e : rev) : Prop := match e with EPoll mid _ _ _ _ _ => mid = false | _ => True end.
Definition is_poll (e : rev) : Prop := match e with EPoll _ _ _ _ _ _ => True | _ => False end.
Definition is_rx (e : rev) : Prop := match e with ERx _ _ => True | _ => False end.

(** the observations of a history *)
Definition obs_of (tr : list (rev * list robs * rec)) : list robs := flat_map (fun x => snd (fst x)) tr.

(** the cycle of the rates that are tried *)
Definition next_rate (r : N) : N := if r =? 125 then 1000 else if r =? 1000 then 500 else if r =? 500 then 250 else 125.
(** every rate tried is the one after [cur], the rate tried last; a start-up search begins the cycle at 125 *)
Fixpoint cyclic (cur : N) (l : list robs) : Prop :=
  match l with
  | [] => True
  | OStartupStart :: t => cyclic 125 t
  | OTry r :: t => r = next_rate cur /\ cyclic r t
  | _ :: t => cyclic cur t
  end.
(** the rate is changed only while the controller is stopped; [m] is the mode of the controller before *)
Fixpoint stopped_changes (m : nmode) (l : list robs) : Prop :=
  match l with
  | [] => True
  | OMode m' :: t => stopped_changes m' t
  | ORate _ :: t => m = MStopped /\ stopped_changes m t
  | _ :: t => stopped_changes m t
  end.
(** how many searches began *)
Definition searches (l : list robs) : nat :=
  length (filter (fun o => match o with OStartupStart | OOnlineStart => true | _ => false end) l).
(** whether a rate was tried since the last search began *)
Fixpoint tried (b : bool) (l : list robs) : bool :=
  match l with
  | [] => b
  | (OStartupStart | OOnlineStart) :: t => tried false t
  | OTry _ :: t => tried true t
  | _ :: t => tried b t
  end.

(** bus activity on the current rate: was a frame received since the rate was chosen, and how many calls of
    li_can_slv_process found a Bit0 error without one that found another error in between (calls that only let the idle time
    pass do not count, the call that begins the search counts).  [st] is the state before the event. *)
Definition act := (bool * N)%type.
Definition act_zero : act := (false, 0).
Definition tries (o : list robs) : bool := existsb (fun x => match x with OTry _ | OStartupStart => true | _ => false end) o.
Definition act_step (st : rstate) (a : act) (x : rev * list robs * rec) : act :=
  let '(heard, n) := a in
  let '(e, o, _) := x in
  match e with
  | ERx _ _ => (true, n)
  | EPoll _ _ _ l _ _ =>
      if tries o then (false, match st, l with ROff, LecBit0 => 1 | _, _ => 0 end)
      else match st with ROn => (heard, match l with LecBit0 => n + 1 | LecNone => n | _ => 0 end) | _ => a end
  | EStart _ _ => act_zero
  | _ => a
  end.
Fixpoint act_of (st : rstate) (a : act) (tr : list (rev * list robs * rec)) : act :=
  match tr with [] => a | x :: t => act_of (r_state (snd x)) (act_step st a x) t end.

(** the time of the last lcsa_start *)
Fixpoint last_start (t : option N) (es : list rev) : option N :=
  match es with [] => t | EStart _ late :: r => last_start (Some late) r | _ :: r => last_start t r end.
(** the rate tried last since the last search began *)
Fixpoint last_tried (r : option N) (l : list robs) : option N :=
  match l with
  | [] => r
  | (OStartupStart | OOnlineStart) :: t => last_tried None t
  | OTry x :: t => last_tried (Some x) t
  | _ :: t => last_tried r t
  end.
(** the search goes on at least until the last of the events begins *)
Definition search_lasts (g : rcfg) (s : rec) (es : list rev) : Prop :=
  forall n, (n < length es)%nat -> searching (rend g s (firstn n es)).
Definition not_start (e : rev) : Prop := match e with EStart _ _ => False | _ => True end.
