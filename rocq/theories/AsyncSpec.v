(** Specification of the asynchronous queues: bounded first-in first-out lists. *)
From Verif Require Import Words ErrModel NodeModel LookModel LookSpec AsyncModel.

(** a module with this number is configured and awake: the first entry with the number is not silent *)
Definition listening (tab : list modl) (silent : list N) (nr : N) : Prop :=
  exists p, is_first (of_nr nr) tab p /\ nth p silent 0 <> SILENT.

(** control messages: an accepted message joins the end of the list; messages of others are dropped; a list of [L]
    messages refuses *)
Inductive cstep (L : nat) : list cmsg -> cop -> list cmsg -> cout -> Prop :=
| CsAccept l tab sil nr src : listening tab sil nr -> (length l < L)%nat ->
    cstep L l (CPut tab sil nr src) (l ++ [(nr, firstn 8 src)]) (CErr ERR_OK)
| CsFull l tab sil nr src : listening tab sil nr -> (length l = L)%nat ->
    cstep L l (CPut tab sil nr src) l (CErr E_RX_QUEUE_OVERFLOW)
| CsDrop l tab sil nr src : ~ listening tab sil nr -> cstep L l (CPut tab sil nr src) l (CErr ERR_OK)
| CsTake m l : cstep L (m :: l) CTake l (CMsg (Some m))
| CsNone : cstep L [] CTake [] (CMsg None).
(** data messages *)
Definition id_of (nr : N) : N := 0x603 + 4 * (nr - 1).
Inductive dstep (L : nat) : list dframe -> dop -> list dframe -> dout -> Prop :=
| DsAccept l nr dlc src : (length l < L)%nat -> dlc <= 8 ->
    dstep L l (DPut nr DSlave dlc src) (l ++ [(id_of nr, dlc, firstn (N.to_nat dlc) src)]) (DErr ERR_OK)
| DsFull l nr ty dlc src : (length l = L)%nat -> dstep L l (DPut nr ty dlc src) l (DErr E_DATA_TX_OVERFLOW)
| DsDlc l nr ty dlc src : (length l < L)%nat -> 8 < dlc -> dstep L l (DPut nr ty dlc src) l (DErr E_DATA_TX_DLC)
| DsMaster l nr dlc src : (length l < L)%nat -> dlc <= 8 -> dstep L l (DPut nr DMaster dlc src) l (DErr E_NOT_IMPLEMENTED)
| DsSent f l : dstep L (f :: l) (DHandle ERR_OK) l (DSent ERR_OK (Some f))
| DsRetry f l hw : hw <> ERR_OK -> dstep L (f :: l) (DHandle hw) (f :: l) (DSent hw (Some f))
| DsIdle hw : dstep L [] (DHandle hw) [] (DSent ERR_OK None).
Inductive steps {A O R} (step : A -> O -> A -> R -> Prop) : A -> list O -> A -> list R -> Prop :=
| StNil a : steps step a [] a []
| StCons a o b r os c rs : step a o b r -> steps step b os c rs -> steps step a (o :: os) c (r :: rs).

(** callers keep to the API: buffers hold the announced bytes; modules have numbers 1..128; no type outside of the
    enumeration *)
Definition cop_ok (o : cop) : Prop := match o with CPut _ _ _ src => (8 <= length src)%nat | CTake => True end.
Definition dop_ok (o : dop) : Prop :=
  match o with DPut nr ty dlc src => 1 <= nr <= 128 /\ ty <> DOther /\ (N.to_nat dlc <= length src)%nat | DHandle _ => True end.

(** messages accepted / processed, straight from calls and results *)
Fixpoint taken (outs : list cout) : list cmsg :=
  match outs with CMsg (Some m) :: r => m :: taken r | _ :: r => taken r | [] => [] end.
Fixpoint sent_frames (outs : list dout) : list dframe :=
  match outs with DSent e (Some f) :: r => if e =? 0 then f :: sent_frames r else sent_frames r | _ :: r => sent_frames r | [] => [] end.
(** frames of the calls that returned success *)
Fixpoint accepted_frames (ops : list dop) (outs : list dout) : list dframe :=
  match ops, outs with
  | DPut nr _ dlc src :: os, DErr e :: rs =>
      if e =? 0 then (id_of nr, dlc, firstn (N.to_nat dlc) src) :: accepted_frames os rs else accepted_frames os rs
  | _ :: os, _ :: rs => accepted_frames os rs
  | _, _ => []
  end.
Inductive accepted_msgs : list cop -> list cout -> list cmsg -> Prop :=
| AmNil : accepted_msgs [] [] []
| AmAcc tab sil nr src os rs l : listening tab sil nr -> accepted_msgs os rs l ->
    accepted_msgs (CPut tab sil nr src :: os) (CErr ERR_OK :: rs) ((nr, firstn 8 src) :: l)
| AmFull tab sil nr src os rs l : listening tab sil nr -> accepted_msgs os rs l ->
    accepted_msgs (CPut tab sil nr src :: os) (CErr E_RX_QUEUE_OVERFLOW :: rs) l
| AmDrop tab sil nr src os rs l : ~ listening tab sil nr -> accepted_msgs os rs l ->
    accepted_msgs (CPut tab sil nr src :: os) (CErr ERR_OK :: rs) l
| AmTake m os rs l : accepted_msgs os rs l -> accepted_msgs (CTake :: os) (CMsg m :: rs) l.

(** preemption: frames accepted and sent by a run, straight from the observations *)
Fixpoint obs_accepted (os : list cobs) : list dframe :=
  match os with OAccepted nr dlc src :: r => (id_of nr, dlc, firstn (N.to_nat dlc) src) :: obs_accepted r | _ :: r => obs_accepted r | [] => [] end.
Fixpoint obs_sent (os : list cobs) : list dframe :=
  match os with OSentF f :: r => f :: obs_sent r | _ :: r => obs_sent r | [] => [] end.
(** schedules in which the interrupt never hits between the two accesses of the increment (line 715) of the fill count *)
Definition in_increment (s : csys) : bool := match c_task s with Some (Task (KStore _) _ _ _) => true | _ => false end.
Fixpoint atomic_inc (L : nat) (s : csys) (es : list cev) : Prop :=
  match es with
  | [] => True
  | e :: r => (match e with VInt _ => in_increment s = false | _ => True end) /\
              match csys_step L s e with Some (s1, _) => atomic_inc L s1 r | None => True end
  end.
Definition cev_ok (e : cev) : Prop :=
  match e with VCall nr dlc src => 1 <= nr <= 128 /\ (N.to_nat dlc <= length src)%nat | _ => True end.
