(** What C74 to C76 talk about: the controllers as the driver sees them. *)
From Verif Require Import Words ReconModel.
From Verif Require Import DualModel.

(** the mode and the rate of a controller after a list of driver calls; a refused call has no effect; before the first call
    the controller is stopped and has no rate *)
Definition is (w v : who) : bool := match w, v with Main, Main | Mon, Mon => true | _, _ => false end.
Fixpoint mode_after (w : who) (m : cmode) (calls : list call) : cmode :=
  match calls with
  | [] => m
  | CallMode v m' ok :: t => mode_after w (if is w v && ok then m' else m) t
  | CallRate _ _ _ :: t => mode_after w m t
  end.
Fixpoint rate_after (w : who) (r : option N) (calls : list call) : option N :=
  match calls with
  | [] => r
  | CallRate v r' ok :: t => rate_after w (if is w v && ok then Some r' else r) t
  | CallMode _ _ _ :: t => rate_after w r t
  end.
Definition mode_of (w : who) (s : dual) : cmode := mode_after w CStop (d_log s).
Definition rate_of (w : who) (s : dual) : option N := rate_after w None (d_log s).

(** a moment between two driver calls of an operation from [s] to [s']: the calls up to there *)
Definition moment (s s' : dual) (calls : list call) : Prop :=
  exists before after, calls = d_log s ++ before /\ d_log s' = d_log s ++ before ++ after.
(** no call for a rate was refused *)
Definition rates_accepted (s : dual) : Prop := forall w r, ~ In (CallRate w r false) (d_log s).
(** the driver never refuses anything *)
Definition obeys (ans : nat -> bool) : Prop := forall n, ans n = true.
(** a rate every part of the library knows *)
Definition common (r : N) : Prop := r = 125 \/ r = 250 \/ r = 500 \/ r = 1000.
(** a node right after its initialisation *)
Definition fresh (s : dual) : Prop := d_mode s = MInit /\ d_log s = [].
