(** Specification of the tunnel: who owns it, and which bytes it carries. *)
From Verif Require Import Words ErrModel NodeModel LookModel AsyncModel AsyncSpec TunnelModel.

(** control messages of the protocol, as they appear on the bus; [nr]: the module of this node, [peer]: the other side *)
Definition tctl (nr : N) : N := 0x601 + 4 * (nr - 1).
Definition is_open_ack (o : tobs) : Prop := exists id d, o = TCtrl id (3 :: d).
Definition deny (nr peer err : N) : tobs := TCtrl (tctl nr) [5; peer; 0; 0; 0; 0; err / 256; err mod 256].
Definition open_ack (nr peer delay : N) : tobs := TCtrl (tctl nr) [3; peer; 0; 0; 0; delay / 256; delay mod 256; 0].
Definition open_msg (peer ctype hi lo : N) : list byte := [1; peer; 0; 0; ctype; hi; lo; 0].
Definition close_msg (peer : N) : list byte := [2; peer; 0; 0; 0; 0; 0; 0].

(** the owner: the own module and the peer, unless the tunnel is free *)
Definition owner (t : tun) : option (N * N) :=
  match tn_state t with TFree => None | _ => Some (tn_own t, tn_prim t) end.

(** operations of the C types *)
Definition top_ok (o : top) : Prop :=
  match o with
  | OMsg nr d p => 1 <= nr <= 127 /\ length d = 8%nat /\ Forall is_byte d
  | OPutc _ dat _ => is_byte dat
  | _ => True
  end.

(** the bytes accepted by successful calls of putc, in order *)
Fixpoint bytes_put (ops : list top) (outs : list (N * list tobs)) : list byte :=
  match ops, outs with
  | OPutc _ d _ :: os, (e, _) :: rs => if e =? 0 then d :: bytes_put os rs else bytes_put os rs
  | _ :: os, _ :: rs => bytes_put os rs
  | _, _ => []
  end.
(** data messages queued / sent in a run, and their bytes *)
Definition obs_of (outs : list (N * list tobs)) : list tobs := flat_map snd outs.
Fixpoint queued (obs : list tobs) : list dframe := match obs with TQueued f :: r => f :: queued r | _ :: r => queued r | [] => [] end.
Fixpoint sent (obs : list tobs) : list dframe := match obs with TSent f :: r => f :: sent r | _ :: r => sent r | [] => [] end.
Definition payload (f : dframe) : list byte := snd f.
Definition stream (fs : list dframe) : list byte := flat_map payload fs.
(** a data message of this node with [n] bytes *)
Definition data_frame (n : nat) (f : dframe) : Prop :=
  exists nr, 1 <= nr <= 127 /\ fst (fst f) = id_of nr /\ snd (fst f) = N.of_nat n /\ length (payload f) = n.
(** the data messages an operation queues: full ones by putc, partly filled ones by the flush function, none otherwise *)
Definition frames_ok (o : top) (fs : list dframe) : Prop :=
  match o with
  | OPutc _ _ _ => fs = [] \/ exists f, fs = [f] /\ data_frame 8 f
  | OFlush _ _ _ => fs = [] \/ exists f n, fs = [f] /\ (1 <= n <= 7)%nat /\ data_frame n f
  | _ => fs = []
  end.
Fixpoint all_frames_ok (ops : list top) (outs : list (N * list tobs)) : Prop :=
  match ops, outs with
  | o :: os, (_, obs) :: rs => frames_ok o (queued obs) /\ all_frames_ok os rs
  | _, _ => True
  end.
