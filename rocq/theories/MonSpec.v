(** Vocabulary of the property on main and monitor (C56), in terms of the frames and requests seen by the two controllers.
    From the model only the vocabulary of events and configuration is used, not its state. *)
From Verif Require Import Words NodeModel MonModel.

Definition is_main_req (e : mev) : bool := match e with MainReq _ _ => true | _ => false end.
Definition is_mon_req (e : mev) : bool := match e with MonReq _ _ => true | _ => false end.
Definition is_req (e : mev) : bool := is_main_req e || is_mon_req e.
Definition count {A} (p : A -> bool) (l : list A) : nat := length (filter p l).

(** an event together with the application data taken for transmission at the last process request (on the main controller)
    before it: what the node sends in that cycle *)
Definition tev : Type := mev * cells (list byte).
Fixpoint annotate (app cap : cells (list byte)) (h : list mev) : list tev :=
  match h with
  | [] => []
  | e :: h' =>
      (e, cap) ::
      match e with
      | MainReq _ _ => annotate app app h'
      | AppTx p o x => annotate (setc app p o x) cap h'
      | _ => annotate app cap h'
      end
  end.

(** the cycle so far: it is over with the first request, on whichever controller, after a request was seen on both, and that
    request starts the next one *)
Definition both (w : list tev) : bool := existsb (fun e => is_main_req (fst e)) w && existsb (fun e => is_mon_req (fst e)) w.
Definition ext (w : list tev) (e : tev) : list tev := if is_req (fst e) && both w then [e] else w ++ [e].
Definition cycle (h : list tev) : list tev := fold_left ext h [].

(** exactly one request on each controller, none longer than one byte *)
Definition short_req (e : mev) : bool := match e with MainReq dlc _ | MonReq dlc _ => dlc <=? 1 | _ => true end.
Definition regular (w : list tev) : Prop :=
  count (fun e => is_main_req (fst e)) w = 1%nat /\ count (fun e => is_mon_req (fst e)) w = 1%nat /\
  Forall (fun e => short_req (fst e) = true) w.

(** frames for receive object [o] of module [m] at [p], with the configured length *)
Definition for_rx (m : mmod) (p o : nat) (r : robj) (p' : nat) (id dlc : N) : bool :=
  ((p' =? p) && (obj_of id =? o))%nat && (rx_nr id =? mm_nr m) && (dlc =? ro_dlc r).
Definition on_main (m : mmod) (p o : nat) (r : robj) (e : tev) : bool :=
  match fst e with MainData p' id dlc _ => for_rx m p o r p' id dlc | _ => false end.
Definition on_mon (m : mmod) (p o : nat) (r : robj) (e : tev) : bool :=
  match fst e with MonData p' id dlc _ => for_rx m p o r p' id dlc | _ => false end.
Definition data_of (e : tev) : list byte :=
  match fst e with MainData _ _ _ d | MonData _ _ _ d | MonTx _ _ _ d _ => d | _ => [] end.
Definition take (n : N) (l : list byte) : list byte := firstn (N.to_nat n) l.

(** a frame with the identifier of transmit object [o] seen by the monitor, with the configured length *)
Definition for_tx (m : mmod) (p o : nat) (t : tobj) (e : tev) : bool :=
  match fst e with
  | MonTx p' id dlc _ _ => ((p' =? p) && (obj_of id =? o))%nat && (tx_nr id =? mm_nr m) && (dlc =? to_dlc t)
  | _ => false
  end.
(** ... carrying, after the monitor's conversion, the data taken for transmission *)
Definition bytes_eqb (a b : list byte) : bool := if list_eq_dec N.eq_dec a b then true else false.
Definition carries (p o : nat) (t : tobj) (e : tev) : bool :=
  bytes_eqb (take (to_dlc t) (to_mon t (data_of e) (to_dlc t))) (take (to_dlc t) (snd e p o)).

(** the two controllers agree on module [m] at [p] in the cycle [w] *)
Definition agree (w : list tev) (p : nat) (m : mmod) : Prop :=
  (forall o r, nth_error (mm_rx m) o = Some r ->
     exists a b, filter (on_main m p o r) w = [a] /\ filter (on_mon m p o r) w = [b] /\
       take (ro_dlc r) (ro_main r (data_of a) (ro_dlc r)) = take (ro_dlc r) (ro_mon r (data_of b) (ro_dlc r))) /\
  (forall o t, nth_error (mm_tx m) o = Some t -> count (fun e => for_tx m p o t e && carries p o t e) w = 1%nat).

(** verdicts and hooks among the observations; frames sent *)
Fixpoint mverdicts (l : list mobs) : list (nat * bool) :=
  match l with
  | [] => []
  | OVerdict p v _ :: t => (p, v) :: mverdicts t
  | _ :: t => mverdicts t
  end.
Definition is_image (o : mobs) : bool := match o with OImage _ => true | _ => false end.

(** frames have eight data bytes; the application does not write its receive objects *)
Definition frame_ok (e : mev) : Prop :=
  match e with MainData _ _ _ d | MonData _ _ _ d | MonTx _ _ _ d _ => length d = 8%nat | _ => True end.
Definition no_apprx (e : mev) : Prop := match e with AppRx _ _ _ => False | _ => True end.

(** the application's transmit objects have eight bytes *)
Definition app_ok (e : mev) : Prop := match e with AppTx _ _ x => length x = 8%nat | _ => True end.

(** every conversion writes at least the configured bytes *)
Definition writes_all (f : cv) (dlc : N) : Prop := forall d, length d = 8%nat -> (N.to_nat dlc <= length (f d dlc))%nat.
Definition full (c : mtab) : Prop :=
  Forall (fun m => Forall (fun r => writes_all (ro_main r) (ro_dlc r) /\ writes_all (ro_mon r) (ro_dlc r)) (mm_rx m) /\
                   Forall (fun t => writes_all (to_mon t) (to_dlc t)) (mm_tx m)) c.

(** the monitor's conversion of a transmit object undoes the main one and does not confuse frames *)
Definition faithful (t : tobj) : Prop :=
  (forall x d, length x = 8%nat -> to_main t x (to_dlc t) = Some d -> take (to_dlc t) (to_mon t d (to_dlc t)) = take (to_dlc t) x) /\
  (forall a b, length a = 8%nat -> length b = 8%nat ->
     take (to_dlc t) (to_mon t a (to_dlc t)) = take (to_dlc t) (to_mon t b (to_dlc t)) -> take (to_dlc t) a = take (to_dlc t) b) /\
  (forall a b, length a = 8%nat -> length b = 8%nat -> take (to_dlc t) a = take (to_dlc t) b ->
     take (to_dlc t) (to_mon t a (to_dlc t)) = take (to_dlc t) (to_mon t b (to_dlc t))).
