(** The table of IO configurations refines the specification. *)
From Verif Require Import Words NodeModel IoCfgModel IoCfgSpec.
From Coq Require Import Lia.

Lemma type_eqb_spec : forall a b, Bool.reflect (a = b) (type_eqb a b).
Proof. intros. unfold type_eqb. destruct (list_eq_dec N.eq_dec a b); constructor; assumption. Qed.

(** the first configuration with this type *)
Fixpoint look (t : list byte) (l : itab) : option ioc :=
  match l with [] => None | e :: r => if type_eqb (e_type e) t then Some (e_io e) else look t r end.

(** used entries, then free ones *)
Definition Shape (max n : nat) (l : itab) : Prop :=
  length l = max /\ exists u f, l = u ++ f /\ length u = n /\ Forall (fun e => e_type e <> []) u /\ Forall (fun e => e_type e = []) f.

Lemma look_app : forall t u f, look t (u ++ f) = match look t u with Some c => Some c | None => look t f end.
Proof. induction u as [|e u IH]; intro f; [reflexivity|]. cbn. destruct (type_eqb (e_type e) t); [reflexivity|apply IH]. Qed.
Lemma look_free : forall t f, t <> [] -> Forall (fun e => e_type e = []) f -> look t f = None.
Proof.
  intros t f Ht H. induction H as [|e f E _ IH]; [reflexivity|]. cbn. rewrite E. destruct (type_eqb_spec [] t); [congruence|exact IH].
Qed.
Lemma add_used : forall t c u f, Forall (fun e => e_type e <> []) u -> io_add t c (u ++ f) = option_map (app u) (io_add t c f).
Proof.
  intros t c u f H. induction H as [|e u E _ IH]; [cbn [app]; destruct (io_add t c f); reflexivity|]. cbn [app io_add]. unfold free.
  destruct (e_type e); [congruence|]. rewrite IH. destruct (io_add t c f); reflexivity.
Qed.
Lemma add_shape : forall max n l t c, Shape max n l -> t <> [] ->
  match io_add t c l with
  | Some l' => (n < max)%nat /\ Shape max (S n) l' /\
      forall t', t' <> [] -> look t' l' = match look t' l with Some x => Some x | None => if type_eqb t t' then Some c else None end
  | None => n = max
  end.
Proof.
  intros max n l t c (L & u & f & -> & Lu & U & F) Ht. rewrite add_used by exact U. destruct f as [|e f].
  - cbn. rewrite app_nil_r in L. congruence.
  - cbn [io_add]. inversion F as [|? ? E F']; subst. unfold free. rewrite E. cbn [option_map]. rewrite app_length in *. cbn in *.
    split; [lia|]. split.
    + split; [rewrite app_length; cbn; lia|]. exists (u ++ [Ent t c]), f. rewrite <- app_assoc. split; [reflexivity|].
      split; [rewrite app_length; cbn; lia|]. split; [apply Forall_app; auto|assumption].
    + intros t' Ht'. rewrite !look_app. destruct (look t' u); [reflexivity|]. cbn. rewrite E.
      destruct (type_eqb_spec [] t'); [congruence|]. rewrite (look_free _ _ Ht' F'). destruct (type_eqb t t'); reflexivity.
Qed.

Lemma pos_look : forall t l, match type_pos t l with
  | Some p => exists e, nth_error l p = Some e /\ e_type e = t /\ look t l = Some (e_io e) /\
      (forall q e', (q < p)%nat -> nth_error l q = Some e' -> e_type e' <> t)
  | None => look t l = None /\ Forall (fun e => e_type e <> t) l
  end.
Proof.
  induction l as [|e l IH]; [split; [reflexivity|constructor]|]. cbn. destruct (type_eqb_spec (e_type e) t) as [E|E].
  - exists e. repeat split; try assumption. intros. lia.
  - destruct (type_pos t l) as [p|]; cbn.
    + destruct IH as (e' & H1 & H2 & H3 & H4). exists e'. repeat split; try assumption. intros [|q] e'' Hq Hn; cbn in Hn; [injection Hn as <-; exact E|].
      eapply H4; [|exact Hn]. lia.
    + destruct IH as [IH1 IH2]. split; [exact IH1|constructor; assumption].
Qed.
Definition recfg (crc date : N) (e : ient) : ient := Ent (e_type e) (Ioc crc date (io_fn (e_io e))).
Lemma upd_split : forall l p e f, nth_error l p = Some e -> exists a b, l = a ++ e :: b /\ length a = p /\ upd_at p f l = a ++ f e :: b.
Proof.
  induction l as [|x l IH]; intros p e f H; [destruct p; discriminate|]. destruct p as [|p]; cbn in H.
  - injection H as <-. exists [], l. auto.
  - destruct (IH p e f H) as (a & b & -> & L & E). exists (x :: a), b. cbn. rewrite E, L. auto.
Qed.
Lemma set_shape : forall max n l t crc date l', Shape max n l -> io_set t crc date l = Some l' -> Shape max n l'.
Proof.
  intros max n l t crc date l' (L & u & f & -> & Lu & U & F) H. unfold io_set in H. pose proof (pos_look t (u ++ f)) as K.
  destruct (type_pos t (u ++ f)) as [p|]; [|discriminate]. injection H as <-. destruct K as (e & K1 & _).
  assert (M : forall x y : itab, length (upd_at p (recfg crc date) (x ++ y)) = length (x ++ y) /\
     exists x' y', upd_at p (recfg crc date) (x ++ y) = x' ++ y' /\ map e_type x' = map e_type x /\ map e_type y' = map e_type y).
  { clear. revert p. intros p x. revert p. induction x as [|a x IH]; intros p y.
    - cbn [app]. split; [revert p; induction y; intros [|p]; cbn; auto|]. exists [], (upd_at p (recfg crc date) y). split; [reflexivity|]. split; [reflexivity|].
      revert p. induction y as [|a y IH]; intros [|p]; cbn; try reflexivity. rewrite IH. reflexivity.
    - destruct p as [|p]; cbn [upd_at app]; [split; [reflexivity|]; exists (recfg crc date a :: x), y; auto|].
      destruct (IH p y) as [I1 (x' & y' & E & I2 & I3)]. split; [cbn; f_equal; exact I1|]. exists (a :: x'), y'. rewrite E. cbn. rewrite I2. auto. }
  change (fun e0 => Ent (e_type e0) (Ioc crc date (io_fn (e_io e0)))) with (recfg crc date).
  destruct (M u f) as [M1 (u' & f' & E & M2 & M3)]. split; [congruence|]. exists u', f'. split; [exact E|].
  split; [rewrite <- Lu, <- (map_length e_type u'), M2, map_length; reflexivity|].
  split.
  - apply Forall_forall. intros x Hx. apply (in_map e_type) in Hx. rewrite M2 in Hx. apply in_map_iff in Hx. destruct Hx as (y & <- & Hy). rewrite Forall_forall in U. auto.
  - apply Forall_forall. intros x Hx. apply (in_map e_type) in Hx. rewrite M3 in Hx. apply in_map_iff in Hx. destruct Hx as (y & <- & Hy). rewrite Forall_forall in F. auto.
Qed.
Lemma set_look : forall l t crc date t', match io_set t crc date l with
  | Some l' => look t' l' = if type_eqb t t' then option_map (fun y => Ioc crc date (io_fn y)) (look t' l) else look t' l
  | None => look t l = None
  end.
Proof.
  intros l t crc date t'. unfold io_set. pose proof (pos_look t l) as K. destruct (type_pos t l) as [p|]; [|apply K].
  destruct K as (e & K1 & K2 & K3 & K4). destruct (upd_split l p e (recfg crc date) K1) as (a & b & -> & La & E).
  change (fun e0 => Ent (e_type e0) (Ioc crc date (io_fn (e_io e0)))) with (recfg crc date). rewrite E, !look_app. cbn. rewrite K2.
  assert (look t a = None) as N.
  { assert (H : Forall (fun e' => e_type e' <> t) a).
    { apply Forall_forall. intros e' Hin. destruct (In_nth_error _ _ Hin) as [q Hq]. eapply (K4 q e'); [|rewrite nth_error_app1; [exact Hq|]];
      (assert (q < length a)%nat by (apply nth_error_Some; congruence)); lia. }
    clear - H. induction H as [|x a X _ IH]; [reflexivity|]. cbn. destruct (type_eqb_spec (e_type x) t); [congruence|exact IH]. }
  destruct (type_eqb_spec t t') as [->|]; [rewrite N; reflexivity|reflexivity].
Qed.

Definition Refines (max : nat) (t : list byte) (x : nat * option ioc) (l : itab) : Prop := Shape max (fst x) l /\ look t l = snd x.
Lemma refines_step : forall max t x l o, t <> [] -> named o -> Refines max t x l -> Refines max t (conf_step max t x o) (istep l o).
Proof.
  intros max t [n c] l o Ht Ho [S L]. cbn [fst snd] in *. destruct o as [|t' c'|t' crc date]; cbn [conf_step istep].
  - split; cbn [fst snd].
    + destruct S as [S _]. split; [unfold io_init; rewrite map_length; exact S|]. exists [], (io_init l). repeat split; [constructor|].
      apply Forall_forall. intros x Hx. apply in_map_iff in Hx. destruct Hx as (y & <- & _). reflexivity.
    + apply look_free; [exact Ht|]. apply Forall_forall. intros x Hx. apply in_map_iff in Hx. destruct Hx as (y & <- & _). reflexivity.
  - pose proof (add_shape max n l t' c' S Ho) as K. destruct (io_add t' c' l) as [l'|].
    + destruct K as (K1 & K2 & K3). replace (n <? max)%nat with true by (symmetry; apply Nat.ltb_lt; exact K1). split; cbn [fst snd]; [exact K2|].
      rewrite (K3 t Ht), L. destruct c; reflexivity.
    + subst n. rewrite Nat.ltb_irrefl. split; [exact S|exact L].
  - pose proof (set_look l t' crc date t) as K. destruct (io_set t' crc date l) as [l'|] eqn:E.
    + split; cbn [fst snd]; [eapply set_shape; eassumption|]. rewrite K, L. reflexivity.
    + split; cbn [fst snd]; [exact S|]. destruct (type_eqb_spec t' t) as [->|]; [|exact L]. rewrite K in L. subst c. exact K.
Qed.
Lemma refines_run : forall max d t h, t <> [] -> Forall named h -> look t (irun max d h) = conf max t h /\ length (irun max d h) = max.
Proof.
  intros max d t h Ht H.
  assert (G : Refines max t (fold_left (conf_step max t) h (O, None)) (irun max d h)).
  { unfold irun. assert (R : Refines max t (O, None) (repeat (Ent [] d) max)).
    { assert (A : Forall (fun e => e_type e = []) (repeat (Ent [] d) max)) by (apply Forall_forall; intros x Hx; apply repeat_spec in Hx; subst; reflexivity).
      split; [split; [apply repeat_length|]; exists [], (repeat (Ent [] d) max); repeat split; [constructor|exact A]|]. apply look_free; assumption. }
    revert R. generalize (O, @None ioc) (repeat (Ent [] d) max). induction H as [|o h Ho _ IH]; intros x l R; [exact R|].
    cbn [fold_left]. apply IH. apply refines_step; assumption. }
  split; [apply G|apply G].
Qed.
