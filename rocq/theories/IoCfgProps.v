(** C114: the IO configuration of the modules. *)
From Verif Require Import Words NodeModel IoCfgModel IoCfgSpec IoCfg.
From Coq Require Import Lia.

(** After any history of initialisations, additions and settings: when the specification has a configuration for type [t], there
    is a module with this type whose position gives exactly this configuration, a setting succeeds and the call runs exactly
    its function; when it has none, setting and calling report an error and nothing is changed.

    Partial: types that are not empty (C114_empty_refuted); with two modules of a type this module is the first one only
    (C114_same_type_refuted). *)
Theorem C114_configuration_partial : forall max d t h, t <> [] -> Forall named h ->
  let l := irun max d h in
  match conf max t h with
  | Some c =>
      (exists p e, (p < max)%nat /\ nth_error l p = Some e /\ e_type e = t /\ io_get p l = Some c) /\
      io_call t l = Some (io_fn c) /\
      forall crc date, io_set t crc date l <> None
  | None =>
      io_call t l = None /\ (forall crc date, io_set t crc date l = None /\ istep l (ISet t crc date) = l) /\
      forall p e, nth_error l p = Some e -> e_type e <> t
  end.
Proof.
  intros max d t h Ht H l. destruct (refines_run max d t h Ht H) as [L1 L2]. fold l in L1, L2. pose proof (pos_look t l) as K.
  unfold istep, io_call, io_set. destruct (type_pos t l) as [p|].
  - destruct K as (e & K1 & K2 & K3 & _). rewrite <- L1, K3. split; [|split; [rewrite K1; reflexivity|discriminate]].
    exists p, e. split; [rewrite <- L2; apply nth_error_Some; congruence|]. split; [exact K1|]. split; [exact K2|]. unfold io_get. rewrite K1. reflexivity.
  - destruct K as [K1 K2]. rewrite <- L1, K1. split; [reflexivity|]. split; [intros; split; reflexivity|].
    intros p e Hp. rewrite Forall_forall in K2. apply K2. eapply nth_error_In; exact Hp.
Qed.
Print Assumptions C114_configuration_partial.

(** A setting changes the configuration at one position, the first module of that type, and nothing at any other position; it
    keeps all types and functions. *)
Theorem C114_one_place_partial : forall l t crc date l', io_set t crc date l = Some l' ->
  exists p e, nth_error l p = Some e /\ e_type e = t /\ (forall q e', (q < p)%nat -> nth_error l q = Some e' -> e_type e' <> t) /\
    nth_error l' p = Some (Ent t (Ioc crc date (io_fn (e_io e)))) /\
    forall q, q <> p -> nth_error l' q = nth_error l q.
Proof.
  intros l t crc date l' H. unfold io_set in H. pose proof (pos_look t l) as K. destruct (type_pos t l) as [p|]; [|discriminate].
  injection H as <-. destruct K as (e & K1 & K2 & _ & K4). exists p, e. split; [exact K1|]. split; [exact K2|]. split; [exact K4|].
  destruct (upd_split l p e (recfg crc date) K1) as (a & b & -> & La & E). change (fun e0 => Ent (e_type e0) (Ioc crc date (io_fn (e_io e0)))) with (recfg crc date).
  rewrite E. split.
  - rewrite nth_error_app2 by lia. rewrite La, Nat.sub_diag. cbn. unfold recfg. rewrite K2. reflexivity.
  - intros q Hq. destruct (Nat.lt_ge_cases q (length a)) as [Q|Q]; [rewrite !nth_error_app1 by exact Q; reflexivity|].
    rewrite !nth_error_app2 by exact Q. replace (q - length a)%nat with (S (q - length a - 1)) by lia. reflexivity.
Qed.
Print Assumptions C114_one_place_partial.

(** Finding: modules are found by their type alone.  Of two modules with the same type the second keeps its values for ever,
    whatever is set for the type. *)
Theorem C114_same_type_refuted : forall max d t a b n, t <> [] -> (2 <= max)%nat ->
  io_get 1 (irun max d ([IAdd t a; IAdd t b] ++ map (fun k => ISet t (fst k) (snd k)) n)) = Some b.
Proof.
  intros max d t a b n Ht Hm. unfold irun. rewrite fold_left_app.
  destruct max as [|[|max]]; try lia. destruct t as [|x t]; [congruence|]. cbn [repeat fold_left istep io_add free e_type option_map].
  assert (G : forall n y z r, (exists c, y = Ent (x :: t) c) -> io_get 1 (fold_left istep (map (fun k => ISet (x :: t) (fst k) (snd k)) n) (y :: Ent (x :: t) z :: r)) = Some z).
  { clear. induction n as [|k n IH]; intros y z r [c ->]; [reflexivity|]. cbn [map fold_left istep]. unfold io_set. cbn [type_pos e_type].
    destruct (type_eqb_spec (x :: t) (x :: t)); [|congruence]. cbn [upd_at e_type]. apply IH. eexists. reflexivity. }
  apply G. eexists. reflexivity.
Qed.
Print Assumptions C114_same_type_refuted.

(** Finding: a free entry has the empty string as type, and the whole table is searched: setting the configuration of a module
    with an empty type reports success on a node without modules. *)
Theorem C114_empty_refuted : forall max d crc date, (1 <= max)%nat -> io_set [] crc date (irun max d []) <> None.
Proof. intros max d crc date H. destruct max as [|max]; [lia|]. discriminate. Qed.
Print Assumptions C114_empty_refuted.

(** two modules of a node of four; the first is configured twice, the other type once before it is added (refused) *)
Example C114_case : let h := [IInit; IAdd [66;66] (Ioc 1 2 (Some 7%nat)); ISet [67] 8 8; IAdd [67] (Ioc 3 4 None); ISet [66;66] 5 6; ISet [66;66] 50 60] in
  Forall named h /\ conf 4 [66;66] h = Some (Ioc 50 60 (Some 7%nat)) /\ conf 4 [67] h = Some (Ioc 3 4 None) /\ conf 4 [68] h = None /\
  io_get 0 (irun 4 (Ioc 0 0 None) h) = Some (Ioc 50 60 (Some 7%nat)) /\ io_get 1 (irun 4 (Ioc 0 0 None) h) = Some (Ioc 3 4 None).
Proof. cbv zeta. split; [repeat (apply Forall_cons; [cbn; try exact I; discriminate|]); apply Forall_nil|]. repeat split. Qed.
