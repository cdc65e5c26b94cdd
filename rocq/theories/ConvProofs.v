(** Lemmas on the conversion functions. *)
From Verif Require Import Words WordsFacts Bits ConvModel ConvSpec.

Lemma upd_mid {A} (a : list A) x b y : upd (a ++ x :: b) (length a) y = Some (a ++ y :: b).
Proof. induction a as [|z a IH]; cbn; [reflexivity|]. rewrite IH. reflexivity. Qed.
Lemma get_mid (a : list byte) x b : get (a ++ x :: b) (length a) = Some x.
Proof. unfold get. rewrite nth_error_app2 by lia. rewrite Nat.sub_diag. reflexivity. Qed.
Lemma snoc {A} (a : list A) x b : a ++ x :: b = (a ++ [x]) ++ b.
Proof. rewrite <- app_assoc. reflexivity. Qed.
Lemma snoc_len {A} (a : list A) x : length (a ++ [x]) = (length a + 1)%nat.
Proof. rewrite app_length. reflexivity. Qed.
Lemma len_S {A} n (l : list A) : length l = S n -> exists x r, l = x :: r /\ length r = n.
Proof. destruct l as [|x r]; [discriminate|]. intro H. injection H as H. eauto. Qed.
Lemma len_Sr {A} n (l : list A) : length l = S n -> exists x r, l = r ++ [x] /\ length r = n.
Proof.
  intro H. destruct (exists_last (l := l)) as (r & x & ->); [intros ->; discriminate|]. exists x, r. split; [reflexivity|]. rewrite snoc_len in H. lia.
Qed.

Lemma copy_up_eq xs : forall s1 s2 d1 old d2, length old = length xs ->
  copy_up (s1 ++ xs ++ s2) (length s1) (d1 ++ old ++ d2) (length d1) (length xs) = Some (d1 ++ xs ++ d2).
Proof.
  induction xs as [|x xs IH]; intros s1 s2 d1 old d2 L; cbn [length] in L.
  - destruct old; [reflexivity|discriminate].
  - destruct (len_S _ _ L) as (o & old' & -> & L'). cbn [length copy_up app]. rewrite get_mid, upd_mid.
    rewrite (snoc s1 x), (snoc d1 x), <- !snoc_len with (x := x). rewrite (IH (s1 ++ [x]) s2 (d1 ++ [x]) old' d2 L'). rewrite <- app_assoc. reflexivity.
Qed.
Lemma copy_down_eq xs : forall s1 s2 d1 old d2, length old = length xs ->
  copy_down (s1 ++ xs ++ s2) (length s1) (d1 ++ old ++ d2) (length d1) (length xs) = Some (d1 ++ rev xs ++ d2).
Proof.
  induction xs as [|x xs IH]; intros s1 s2 d1 old d2 L; cbn [length] in L.
  - destruct old; [reflexivity|discriminate].
  - destruct (len_Sr _ _ L) as (o & old' & -> & L'). cbn [length copy_down app]. rewrite get_mid.
    replace (d1 ++ (old' ++ [o]) ++ d2) with ((d1 ++ old') ++ o :: d2) by (rewrite <- !app_assoc; reflexivity).
    replace (length d1 + length xs)%nat with (length (d1 ++ old')) by (rewrite app_length; lia). rewrite upd_mid, <- app_assoc.
    rewrite (snoc s1 x), <- snoc_len with (x := x). rewrite (IH (s1 ++ [x]) s2 d1 old' (x :: d2) L'). cbn [rev]. rewrite <- (app_assoc (rev xs)). reflexivity.
Qed.

(** ** numbers in memory *)
Lemma host_length le n v : length (host le n v) = n.
Proof.
  assert (H : length (le_enc n v) = n) by (revert v; induction n as [|n IH]; intro v; cbn; [reflexivity|]; rewrite IH; reflexivity).
  destruct le; cbn; [exact H|]. unfold be_enc. rewrite rev_length. exact H.
Qed.
Lemma host_all_length le n vs : length (host_all le n vs) = (n * length vs)%nat.
Proof. induction vs as [|v vs IH]; cbn; [lia|]. unfold host_all in IH. rewrite app_length, host_length, IH. lia. Qed.
Lemma host2 le v : host le 2 v = if le then [v mod 256; v / 256 mod 256] else [v / 256 mod 256; v mod 256].
Proof. destruct le; reflexivity. Qed.
Lemma host4 le v : host le 4 v = if le then [v mod 256; v / 256 mod 256; v / 256 / 256 mod 256; v / 256 / 256 / 256 mod 256]
  else [v / 256 / 256 / 256 mod 256; v / 256 / 256 mod 256; v / 256 mod 256; v mod 256].
Proof. destruct le; reflexivity. Qed.
Lemma load16_mid le a v b : v < 65536 -> load16 le (a ++ host le 2 v ++ b) (length a) = Some v.
Proof.
  intro H. unfold load16. rewrite host2. destruct le; cbn [app]; rewrite get_mid.
  - rewrite snoc, <- snoc_len with (x := v mod 256), get_mid. f_equal. lia.
  - rewrite snoc, <- snoc_len with (x := v / 256 mod 256), get_mid. f_equal. lia.
Qed.
Lemma store16_mid le a old b v : length old = 2%nat -> store16 le (a ++ old ++ b) (length a) v = Some (a ++ host le 2 v ++ b).
Proof.
  intro L. destruct (len_S _ _ L) as (x & r & -> & L1). destruct (len_S _ _ L1) as (y & r' & -> & L2). destruct r'; [|discriminate].
  unfold store16. cbn [app]. cbv zeta. rewrite upd_mid. rewrite shiftr_div. change (2 ^ 8) with 256. unfold u8. rewrite host2.
  destruct le; cbn [app].
  - rewrite (snoc a (v mod 256)), <- snoc_len with (x := v mod 256), upd_mid. rewrite <- app_assoc. reflexivity.
  - rewrite (snoc a (v / 256 mod 256)), <- snoc_len with (x := v / 256 mod 256), upd_mid. rewrite <- app_assoc. reflexivity.
Qed.
Lemma plus2 {A} (a : list A) b : length b = 2%nat -> (length a + 2)%nat = length (a ++ b).
Proof. intro H. rewrite app_length, H. reflexivity. Qed.
Lemma plus4 {A} (a : list A) b : length b = 4%nat -> (length a + 4)%nat = length (a ++ b).
Proof. intro H. rewrite app_length, H. reflexivity. Qed.
Lemma conv16_eq f le ws : forall s1 s2 d1 old d2, Forall (fun v => v < 65536) ws -> length old = (2 * length ws)%nat ->
  conv16 f le (s1 ++ host_all le 2 ws ++ s2) (length s1) (d1 ++ old ++ d2) (length d1) (length ws) = Some (d1 ++ host_all le 2 (map f ws) ++ d2).
Proof.
  induction ws as [|w ws IH]; intros s1 s2 d1 old d2 F L; cbn [length] in L.
  - destruct old; [reflexivity|discriminate].
  - inversion F; subst. assert (X : exists o old', old = o ++ old' /\ length o = 2%nat /\ length old' = (2 * length ws)%nat).
    { exists (firstn 2 old), (skipn 2 old). rewrite firstn_skipn, firstn_length, skipn_length. repeat split; lia. }
    destruct X as (o & old' & -> & Lo & L'). cbn [length conv16 host_all flat_map map]. rewrite <- !app_assoc. rewrite load16_mid by assumption.
    rewrite store16_mid by exact Lo. rewrite (plus2 s1 (host le 2 w)) by apply host_length. rewrite (plus2 d1 (host le 2 (f w))) by apply host_length.
    rewrite (app_assoc s1), (app_assoc d1 (host le 2 (f w)) (old' ++ d2)). fold (host_all le 2 ws). rewrite IH by assumption. rewrite <- app_assoc. reflexivity.
Qed.
Lemma split_host4 le v : v < 4294967296 -> host le 4 v = host_all le 2 (if le then [v mod 65536; v / 65536] else [v / 65536; v mod 65536]).
Proof.
  intro H. rewrite host4. unfold host_all. destruct le; cbn [flat_map app]; rewrite !host2; cbn [app]; repeat (apply (f_equal2 cons); [lia|]); reflexivity.
Qed.
Lemma load32_mid le a v b : v < 4294967296 -> load32 le (a ++ host le 4 v ++ b) (length a) = Some v.
Proof.
  intro H. unfold load32. rewrite split_host4 by exact H. unfold host_all.
  destruct le; cbn [flat_map]; rewrite app_nil_r, <- !app_assoc; rewrite load16_mid by lia.
  - rewrite (plus2 a (host true 2 (v mod 65536))) by apply host_length. rewrite (app_assoc a), load16_mid by lia. f_equal. lia.
  - rewrite (plus2 a (host false 2 (v / 65536))) by apply host_length. rewrite (app_assoc a), load16_mid by lia. f_equal. lia.
Qed.
Lemma store32_mid le a old b v : length old = 4%nat -> store32 le (a ++ old ++ b) (length a) v = Some (a ++ host le 4 v ++ b).
Proof.
  intro L. assert (X : exists o o', old = o ++ o' /\ length o = 2%nat /\ length o' = 2%nat).
  { exists (firstn 2 old), (skipn 2 old). rewrite firstn_skipn, firstn_length, skipn_length. repeat split; lia. }
  destruct X as (o & o' & -> & L1 & L2). unfold store32. cbv zeta. rewrite <- app_assoc. rewrite store16_mid by exact L1.
  rewrite (plus2 a (host le 2 (if le then u16 v else u16 (N.shiftr v 16)))) by apply host_length. rewrite (app_assoc a), store16_mid by exact L2.
  rewrite shiftr_div. change (2 ^ 16) with 65536. unfold u16. f_equal. rewrite <- app_assoc. f_equal.
  rewrite app_assoc. f_equal. rewrite host4. destruct le; rewrite !host2; cbn [app]; repeat (apply (f_equal2 cons); [lia|]); reflexivity.
Qed.
Lemma conv32_eq f le ws : forall s1 s2 d1 old d2, Forall (fun v => v < 4294967296) ws -> length old = (4 * length ws)%nat ->
  conv32 f le (s1 ++ host_all le 4 ws ++ s2) (length s1) (d1 ++ old ++ d2) (length d1) (length ws) = Some (d1 ++ host_all le 4 (map f ws) ++ d2).
Proof.
  induction ws as [|w ws IH]; intros s1 s2 d1 old d2 F L; cbn [length] in L.
  - destruct old; [reflexivity|discriminate].
  - inversion F; subst. assert (X : exists o old', old = o ++ old' /\ length o = 4%nat /\ length old' = (4 * length ws)%nat).
    { exists (firstn 4 old), (skipn 4 old). rewrite firstn_skipn, firstn_length, skipn_length. repeat split; lia. }
    destruct X as (o & old' & -> & Lo & L'). cbn [length conv32 host_all flat_map map]. rewrite <- !app_assoc. rewrite load32_mid by assumption.
    rewrite store32_mid by exact Lo. rewrite (plus4 s1 (host le 4 w)) by apply host_length. rewrite (plus4 d1 (host le 4 (f w))) by apply host_length.
    rewrite (app_assoc s1), (app_assoc d1 (host le 4 (f w)) (old' ++ d2)). fold (host_all le 4 ws). rewrite IH by assumption. rewrite <- app_assoc. reflexivity.
Qed.

(** ** rotations *)
Definition swap16 (v : N) : N := v mod 256 * 256 + v / 256.
Definition swap32 (v : N) : N := v mod 65536 * 65536 + v / 65536.
Lemma rotl16_8 v : v < 65536 -> rotl16 v 8 = swap16 v.
Proof.
  intro H. unfold rotl16, swap16. change (16 - 8) with 8. rewrite shiftl_mul, shiftr_div. rewrite (land_low _ 16 : N.land _ 65535 = _).
  change (2 ^ 8) with 256. change (2 ^ 16) with 65536. unfold u16.
  replace ((v * 256) mod 65536 mod 65536) with (v mod 256 * 2 ^ 8) by (change (2 ^ 8) with 256; lia).
  rewrite lor_add by (change (2 ^ 8) with 256; lia). reflexivity.
Qed.
Lemma rotl32_16 v : v < 4294967296 -> rotl32 v 16 = swap32 v.
Proof.
  intro H. unfold rotl32, swap32. change (32 - 16) with 16. rewrite shiftl_mul, shiftr_div. rewrite (land_low _ 32 : N.land _ 4294967295 = _).
  change (2 ^ 16) with 65536. change (2 ^ 32) with 4294967296. unfold u32.
  replace (((v * 65536) mod 4294967296) mod 4294967296 mod 4294967296) with (v mod 65536 * 2 ^ 16) by (change (2 ^ 16) with 65536; lia).
  rewrite lor_add by (change (2 ^ 16) with 65536; lia). reflexivity.
Qed.
Lemma swap16_lt v : v < 65536 -> swap16 v < 65536. Proof. unfold swap16. lia. Qed.
Lemma swap16_inv v : v < 65536 -> swap16 (swap16 v) = v. Proof. unfold swap16. lia. Qed.
Lemma host_swap16 v : v < 65536 -> host true 2 (swap16 v) = be_enc 2 v.
Proof. intro H. change (be_enc 2 v) with (host false 2 v). rewrite !host2. unfold swap16. repeat (apply (f_equal2 cons); [lia|]). reflexivity. Qed.
Lemma flat_map_ext_in {A B} (f g : A -> list B) l : Forall (fun x => f x = g x) l -> flat_map f l = flat_map g l.
Proof. induction 1; cbn; congruence. Qed.
Lemma flat_map_map {A B C} (f : B -> list C) (g : A -> B) l : flat_map f (map g l) = flat_map (fun x => f (g x)) l.
Proof. induction l; cbn; congruence. Qed.
Lemma map_id_in {A} (f : A -> A) l : Forall (fun x => f x = x) l -> map f l = l.
Proof. induction 1; cbn; congruence. Qed.
Lemma fits2 vs : Forall (fits 2) vs -> Forall (fun v => v < 65536) vs. Proof. apply Forall_impl. intros v H. exact H. Qed.
Lemma fits4 vs : Forall (fits 4) vs -> Forall (fun v => v < 4294967296) vs. Proof. apply Forall_impl. intros v H. exact H. Qed.
Definition f16 (le : bool) (v : N) : N := if le then rotl16 v 8 else v.
Lemma tx16_all le vs : Forall (fun v => v < 65536) vs -> host_all le 2 (map (f16 le) vs) = be_all 2 vs.
Proof.
  intro F. unfold host_all, be_all. rewrite flat_map_map. apply flat_map_ext_in. eapply Forall_impl; [|exact F]. intros v H. cbn beta in *.
  unfold f16. destruct le; [rewrite rotl16_8 by exact H; apply host_swap16; exact H|reflexivity].
Qed.
Lemma rx16_all le vs : Forall (fun v => v < 65536) vs -> exists ws, Forall (fun v => v < 65536) ws /\ length ws = length vs /\
  be_all 2 vs = host_all le 2 ws /\ map (f16 le) ws = vs.
Proof.
  intro F. exists (if le then map swap16 vs else vs). destruct le.
  - split; [|split; [apply map_length|split]].
    + apply Forall_map. eapply Forall_impl; [|exact F]. intros v H. apply swap16_lt. exact H.
    + unfold host_all, be_all. rewrite flat_map_map. apply flat_map_ext_in. eapply Forall_impl; [|exact F]. intros v H. symmetry. apply host_swap16. exact H.
    + rewrite map_map. apply map_id_in. eapply Forall_impl; [|exact F]. intros v H. cbn beta in *. unfold f16. rewrite rotl16_8 by (apply swap16_lt; exact H). apply swap16_inv. exact H.
  - split; [exact F|]. split; [reflexivity|]. split; [reflexivity|]. apply map_id_in. eapply Forall_impl; [|exact F]. intros v H. reflexivity.
Qed.
Lemma half_eq n r : (r < 2)%nat -> half (N.of_nat (2 * n + r)) = n.
Proof. intro H. unfold half. rewrite shiftr_div. change (2 ^ 1) with 2. lia. Qed.
Lemma quarter_eq n r : (r < 4)%nat -> quarter (N.of_nat (4 * n + r)) = n.
Proof. intro H. unfold quarter. rewrite shiftr_div. change (2 ^ 2) with 4. lia. Qed.

Lemma tx_uint16_eq le vs pre post old rest r : Forall (fits 2) vs -> length old = (2 * length vs)%nat -> (r < 2)%nat ->
  tx_uint16 le (old ++ rest) (pre ++ host_all le 2 vs ++ post) (length pre) (N.of_nat (2 * length vs + r)) = Some (be_all 2 vs ++ rest).
Proof.
  intros F L R. unfold tx_uint16. rewrite half_eq by exact R. change (fun v => if le then rotl16 v 8 else v) with (f16 le).
  etransitivity; [exact (conv16_eq (f16 le) le vs pre post [] old rest (fits2 _ F) L)|]. cbn [app]. rewrite tx16_all by exact (fits2 _ F). reflexivity.
Qed.
Lemma rx_uint16_eq le vs pre post old rest r : Forall (fits 2) vs -> length old = (2 * length vs)%nat -> (r < 2)%nat ->
  rx_uint16 le (be_all 2 vs ++ rest) (pre ++ old ++ post) (length pre) (N.of_nat (2 * length vs + r)) = Some (pre ++ host_all le 2 vs ++ post).
Proof.
  intros F L R. unfold rx_uint16. rewrite half_eq by exact R. change (fun v => if le then rotl16 v 8 else v) with (f16 le).
  destruct (rx16_all le vs (fits2 _ F)) as (ws & A & B & C & D). rewrite C, <- B. rewrite <- B in L.
  etransitivity; [exact (conv16_eq (f16 le) le ws [] rest pre old post A L)|]. rewrite D. reflexivity.
Qed.
(** 32 bits: as pairs of 16-bit words *)
Definition halves (le : bool) (v : N) : list N := if le then [v mod 65536; v / 65536] else [v / 65536; v mod 65536].
Lemma halves_all le vs : Forall (fun v => v < 4294967296) vs -> host_all le 4 vs = host_all le 2 (flat_map (halves le) vs) /\
  Forall (fun v => v < 65536) (flat_map (halves le) vs) /\ length (flat_map (halves le) vs) = (2 * length vs)%nat.
Proof.
  induction 1 as [|v vs H F IH]; [repeat split; constructor|]. destruct IH as (A & B & C). unfold host_all in *. cbn [flat_map].
  assert (HH : length (halves le v) = 2%nat) by (destruct le; reflexivity).
  split; [|split].
  - rewrite flat_map_app, <- A. f_equal. apply split_host4. exact H.
  - apply Forall_app. split; [|exact B]. destruct le; cbn [halves]; repeat constructor; lia.
  - rewrite app_length, C, HH. cbn [length]. lia.
Qed.
Lemma be4_halves v : v < 4294967296 -> be_enc 4 v = host_all true 2 (map swap16 [v / 65536; v mod 65536]).
Proof.
  intro H. change (be_enc 4 v) with (host false 4 v). rewrite host4. unfold host_all. cbn [map flat_map]. rewrite !host2. unfold swap16. cbn [app].
  repeat (apply (f_equal2 cons); [lia|]). reflexivity.
Qed.
Lemma swap32_lt v : v < 4294967296 -> swap32 v < 4294967296. Proof. unfold swap32. lia. Qed.
Lemma swap32_inv v : v < 4294967296 -> swap32 (swap32 v) = v. Proof. unfold swap32. lia. Qed.
Lemma swap32_host v : v < 4294967296 -> host true 4 (swap32 v) = host_all true 2 [v / 65536; v mod 65536].
Proof.
  intro H. rewrite host4. unfold host_all, swap32. cbn [flat_map]. rewrite !host2. cbn [app]. repeat (apply (f_equal2 cons); [lia|]). reflexivity.
Qed.
Definition hl (v : N) : list N := [v / 65536; v mod 65536].
Lemma hl_all vs : Forall (fun v => v < 4294967296) vs ->
  be_all 4 vs = host_all true 2 (map swap16 (flat_map hl vs)) /\ host_all true 4 (map swap32 vs) = host_all true 2 (flat_map hl vs) /\
  Forall (fun v => v < 65536) (flat_map hl vs) /\ length (flat_map hl vs) = (2 * length vs)%nat.
Proof.
  induction 1 as [|v vs H F IH]; [repeat split; constructor|]. destruct IH as (A & B & C & D). unfold host_all, be_all in *. cbn [flat_map map].
  split; [|split; [|split]].
  - rewrite map_app, flat_map_app, <- A. f_equal. apply be4_halves. exact H.
  - rewrite flat_map_app, <- B. f_equal. apply swap32_host. exact H.
  - apply Forall_app. split; [|exact C]. unfold hl. repeat constructor; lia.
  - rewrite app_length, D. cbn [hl length]. lia.
Qed.
Lemma map_rot16 ws : Forall (fun v => v < 65536) ws -> map (fun v => rotl16 v 8) ws = map swap16 ws.
Proof. induction 1; cbn; [reflexivity|]. rewrite rotl16_8 by assumption. congruence. Qed.
Lemma map_rot32 ws : Forall (fun v => v < 4294967296) ws -> map (fun v => rotl32 v 16) ws = map swap32 ws.
Proof. induction 1; cbn; [reflexivity|]. rewrite rotl32_16 by assumption. congruence. Qed.
Lemma map_swap16_inv ws : Forall (fun v => v < 65536) ws -> map swap16 (map swap16 ws) = ws.
Proof. induction 1; cbn; [reflexivity|]. rewrite swap16_inv by assumption. congruence. Qed.
Lemma map_swap32_inv ws : Forall (fun v => v < 4294967296) ws -> map swap32 (map swap32 ws) = ws.
Proof. induction 1; cbn; [reflexivity|]. rewrite swap32_inv by assumption. congruence. Qed.
Lemma swap16_all ws : Forall (fun v => v < 65536) ws -> Forall (fun v => v < 65536) (map swap16 ws).
Proof. intro F. apply Forall_map. eapply Forall_impl; [|exact F]. intros v H. apply swap16_lt. exact H. Qed.
Lemma swap32_all ws : Forall (fun v => v < 4294967296) ws -> Forall (fun v => v < 4294967296) (map swap32 ws).
Proof. intro F. apply Forall_map. eapply Forall_impl; [|exact F]. intros v H. apply swap32_lt. exact H. Qed.
Lemma rx_uint32_eq le vs pre post old rest r : Forall (fits 4) vs -> length old = (4 * length vs)%nat -> (r < 4)%nat ->
  rx_uint32 le (be_all 4 vs ++ rest) (pre ++ old ++ post) (length pre) (N.of_nat (4 * length vs + r)) = Some (pre ++ host_all le 4 vs ++ post).
Proof.
  intros F0 L R. pose proof (fits4 _ F0) as F. unfold rx_uint32. rewrite quarter_eq by exact R. cbv zeta. destruct le.
  - destruct (hl_all vs F) as (A & B & C & D).
    assert (X : conv16 (fun v => rotl16 v 8) true (be_all 4 vs ++ rest) 0 (be_all 4 vs ++ rest) 0 (2 * length vs) = Some (host_all true 2 (flat_map hl vs) ++ rest)).
    { rewrite A. assert (LM : length (map swap16 (flat_map hl vs)) = (2 * length vs)%nat) by (rewrite map_length; exact D). rewrite <- LM.
      etransitivity; [refine (conv16_eq (fun v => rotl16 v 8) true (map swap16 (flat_map hl vs)) [] rest [] (host_all true 2 (map swap16 (flat_map hl vs))) rest (swap16_all _ C) _)|].
      - rewrite host_all_length. reflexivity.
      - rewrite map_rot16 by (apply swap16_all; exact C). rewrite map_swap16_inv by exact C. reflexivity. }
    rewrite X, <- B. rewrite <- (map_length swap32 vs) in L |- *.
    etransitivity; [exact (conv32_eq (fun v => rotl32 v 16) true (map swap32 vs) [] rest pre old post (swap32_all _ F) L)|].
    rewrite map_rot32 by (apply swap32_all; exact F). rewrite map_swap32_inv by exact F. reflexivity.
  - etransitivity; [exact (conv32_eq (fun v => v) false vs [] rest pre old post F L)|]. rewrite map_id. reflexivity.
Qed.
Lemma tx_uint32_eq le vs pre post old rest r : Forall (fits 4) vs -> length old = (4 * length vs)%nat -> (r < 4)%nat ->
  tx_uint32 le (old ++ rest) (pre ++ host_all le 4 vs ++ post) (length pre) (N.of_nat (4 * length vs + r)) = Some (be_all 4 vs ++ rest).
Proof.
  intros F0 L R. pose proof (fits4 _ F0) as F. unfold tx_uint32. rewrite quarter_eq by exact R. cbv zeta.
  destruct (halves_all le vs F) as (A & B & C). rewrite A. change (fun v => if le then rotl16 v 8 else v) with (f16 le).
  assert (X : conv16 (f16 le) le (pre ++ host_all le 2 (flat_map (halves le) vs) ++ post) (length pre) (old ++ rest) 0 (2 * length vs) =
    Some (host_all le 2 (map (f16 le) (flat_map (halves le) vs)) ++ rest)).
  { rewrite <- C. apply (conv16_eq (f16 le) le (flat_map (halves le) vs) pre post [] old rest B). rewrite C. lia. }
  rewrite X. destruct le.
  - (* words swapped: this is the image of swap32 of the values in network order *)
    assert (Y : host_all true 2 (map (f16 true) (flat_map (halves true) vs)) = host_all true 4 (map swap32 (map (fun v => swap16 (v / 65536) + 65536 * swap16 (v mod 65536)) vs))).
    { clear - F. induction F as [|v vs H F IH]; [reflexivity|]. cbn [flat_map map]. rewrite map_app. unfold host_all in *. rewrite flat_map_app, IH. cbn [flat_map]. f_equal.
      rewrite swap32_host by (unfold swap16; lia). unfold host_all. cbn [halves map flat_map f16]. rewrite !rotl16_8 by lia.
      replace ((swap16 (v / 65536) + 65536 * swap16 (v mod 65536)) / 65536) with (swap16 (v mod 65536)) by (unfold swap16; lia).
      replace ((swap16 (v / 65536) + 65536 * swap16 (v mod 65536)) mod 65536) with (swap16 (v / 65536)) by (unfold swap16; lia). reflexivity. }
    set (us := map (fun v => swap16 (v / 65536) + 65536 * swap16 (v mod 65536)) vs) in *.
    assert (FU : Forall (fun v => v < 4294967296) us). { apply Forall_map. eapply Forall_impl; [|exact F]. intros v H. cbn beta in *. unfold swap16. lia. }
    rewrite Y. assert (LU : length (map swap32 us) = length vs) by (unfold us; rewrite !map_length; reflexivity). rewrite <- LU.
    etransitivity; [refine (conv32_eq (fun v => rotl32 v 16) true (map swap32 us) [] rest [] (host_all true 4 (map swap32 us)) rest (swap32_all _ FU) _)|].
    + apply host_all_length.
    + rewrite map_rot32 by (apply swap32_all; exact FU). rewrite map_swap32_inv by exact FU. cbn [app]. f_equal. f_equal. unfold us.
      destruct (hl_all vs F) as (Z & _). rewrite Z. clear - F. induction F as [|v vs H F IH]; [reflexivity|]. cbn [map flat_map]. rewrite map_app. unfold host_all in *. rewrite flat_map_app, <- IH. cbn [flat_map]. f_equal.
      cbn [hl map]. cbn [flat_map]. rewrite host4, !host2. cbn [app]. unfold swap16. repeat (apply (f_equal2 cons); [lia|]). reflexivity.
  - f_equal. f_equal. clear - F. induction F as [|v vs H F IH]; [reflexivity|]. unfold host_all, be_all in *. cbn [flat_map map]. rewrite map_app, flat_map_app, IH. f_equal.
    symmetry. rewrite map_id. apply (split_host4 false v H).
Qed.

(** ** bits and nibbles *)
Lemma le_len n v : length (le_enc n v) = n. Proof. exact (host_length true n v). Qed.
Lemma be_len n v : length (be_enc n v) = n. Proof. exact (host_length false n v). Qed.
Lemma tx_bit_eq le n v pre post old rest : length old = n ->
  tx_bit le (old ++ rest) (pre ++ host le n v ++ post) (length pre) (N.of_nat n) = Some (le_enc n v ++ rest).
Proof.
  intro L. unfold tx_bit. rewrite Nat2N.id. destruct le; cbn [host].
  - pose proof (copy_up_eq (le_enc n v) pre post [] old rest) as C. rewrite le_len in C. exact (C L).
  - pose proof (copy_down_eq (be_enc n v) pre post [] old rest) as C. rewrite be_len in C. assert (RR : rev (be_enc n v) = le_enc n v) by (unfold be_enc; apply rev_involutive). rewrite RR in C. exact (C L).
Qed.
Lemma rx_bit_eq le n v pre post old rest : length old = n ->
  rx_bit le (le_enc n v ++ rest) (pre ++ old ++ post) (length pre) (N.of_nat n) = Some (pre ++ host le n v ++ post).
Proof.
  intro L. unfold rx_bit. rewrite Nat2N.id. destruct le; cbn [host].
  - pose proof (copy_up_eq (le_enc n v) [] rest pre old post) as C. rewrite le_len in C. exact (C L).
  - pose proof (copy_down_eq (le_enc n v) [] rest pre old post) as C. rewrite le_len in C. exact (C L).
Qed.
Lemma words_of le n : forall xs, length xs = (2 * n)%nat -> Forall is_byte xs ->
  exists ws, Forall (fun v => v < 65536) ws /\ length ws = n /\ host_all le 2 ws = xs.
Proof.
  induction n as [|n IH]; intros xs L F.
  - destruct xs; [|discriminate]. exists []. repeat split; constructor.
  - destruct xs as [|a [|b xs]]; cbn in L; try lia. inversion F as [|? ? Fa F1]; subst. inversion F1 as [|? ? Fb F2]; subst. unfold is_byte in *.
    destruct (IH xs ltac:(lia) F2) as (ws & A & B & C). exists ((if le then a + 256 * b else 256 * a + b) :: ws).
    split; [constructor; [destruct le; lia|exact A]|]. split; [cbn; lia|]. unfold host_all in *. cbn [flat_map]. rewrite C, host2.
    destruct le; cbn [app]; repeat (apply (f_equal2 cons); [lia|]); reflexivity.
Qed.
Lemma nibble_eq le xs s1 s2 d1 old d2 n r : length xs = (2 * n)%nat -> Forall is_byte xs -> length old = length xs -> (r < 2)%nat ->
  conv16 (fun v => v) le (s1 ++ xs ++ s2) (length s1) (d1 ++ old ++ d2) (length d1) (half (N.of_nat (2 * n + r))) = Some (d1 ++ xs ++ d2).
Proof.
  intros L F LO R. rewrite half_eq by exact R. destruct (words_of le n xs L F) as (ws & A & B & C). subst xs n.
  rewrite host_all_length in LO. etransitivity; [exact (conv16_eq (fun v => v) le ws s1 s2 d1 old d2 A LO)|]. rewrite map_id. reflexivity.
Qed.

(** ** three values of 20 bits *)
Lemma sint20_eq a b c pre post old rest : a < 4294967296 -> b < 4294967296 -> c < 4294967296 -> length old = 8%nat ->
  sint32_to_sint20 (old ++ rest) (pre ++ host_all true 4 [a; b; c] ++ post) (length pre) =
  Some ([a / 4096 mod 256; a / 16 mod 256; a mod 16 * 16 + b / 65536 mod 16; b / 256 mod 256; b mod 256; c / 4096 mod 256; c / 16 mod 256; c mod 16 * 16] ++ rest).
Proof.
  intros A B C L. unfold sint32_to_sint20, host_all. cbn [flat_map]. rewrite app_nil_r, <- !app_assoc. rewrite load32_mid by exact A.
  rewrite (plus4 pre (host true 4 a)) by apply host_length. rewrite (app_assoc pre), load32_mid by exact B.
  assert (P8 : (length pre + 8)%nat = length ((pre ++ host true 4 a) ++ host true 4 b)) by (rewrite !app_length, !host_length; lia). rewrite P8.
  rewrite (app_assoc (pre ++ host true 4 a)), load32_mid by exact C.
  set (xs := [u8 (N.shiftr a 12); _; _; _; _; _; _; _]).
  pose proof (copy_up_eq xs [] [] [] old rest L) as E. cbn [app] in E. rewrite app_nil_r in E. etransitivity; [exact E|]. f_equal. f_equal.
  unfold xs. rewrite !shiftr_div, !shiftl_mul, (N.land_comm 15), land_15. change (2 ^ 12) with 4096. change (2 ^ 4) with 16. change (2 ^ 8) with 256. change (2 ^ 16) with 65536.
  unfold u8, u32. replace ((a * 16) mod 4294967296 mod 256) with (a mod 16 * 2 ^ 4) by (change (2 ^ 4) with 16; lia).
  rewrite lor_add by (change (2 ^ 4) with 16; lia). change (2 ^ 4) with 16. repeat (apply (f_equal2 cons); [lia|]). reflexivity.
Qed.

(** ** twelve bits *)
Fixpoint zipw {A B C} (f : A -> B -> C) (l : list A) (m : list B) : list C :=
  match l, m with a :: l', b :: m' => f a b :: zipw f l' m' | _, _ => [] end.
Definition set_high (w b : N) : N := w mod 16 + 16 * b.
Lemma high_word w b : b < 256 -> u16 (N.lor (N.land w 15) (N.shiftl b 4)) = set_high w b.
Proof.
  intro H. rewrite land_15, shiftl_mul, N.lor_comm, lor_add by (change (2 ^ 4) with 16; lia). change (2 ^ 4) with 16. unfold u16, set_high. lia.
Qed.
Lemma rx12_high_eq bs : forall ws c1 c2 a b, length bs = length ws -> Forall is_byte bs -> Forall (fun v => v < 65536) ws ->
  rx12_high (c1 ++ bs ++ c2) (length c1) (a ++ host_all true 2 ws ++ b) (length a) (length bs) = Some (a ++ host_all true 2 (zipw set_high ws bs) ++ b).
Proof.
  induction bs as [|x bs IH]; intros ws c1 c2 a b L Fb Fw; destruct ws as [|w ws]; try discriminate; [reflexivity|].
  inversion Fb; subst. inversion Fw; subst. cbn [length rx12_high app host_all flat_map zipw]. rewrite <- !app_assoc. rewrite load16_mid by assumption. rewrite get_mid.
  rewrite high_word by assumption. rewrite store16_mid by apply host_length. rewrite (plus2 a (host true 2 (set_high w x))) by apply host_length.
  rewrite (app_assoc a), (snoc c1 x), <- snoc_len with (x := x). fold (host_all true 2 ws). rewrite IH; [|cbn in L; lia|assumption|assumption]. rewrite <- app_assoc. reflexivity.
Qed.
Definition set_low (w n : N) : N := w / 16 * 16 + n.
Lemma low_word w n : w < 65536 -> n < 16 -> N.lor (N.land w 65520) n = set_low w n.
Proof.
  intros H Hn. rewrite (land_shifted w 4095 4 : N.land w 65520 = _). change (2 ^ 4) with 16. rewrite (land_low (w / 16) 12 : N.land _ 4095 = _). change (2 ^ 12) with 4096.
  replace ((w / 16) mod 4096) with (w / 16) by lia. change (w / 16 * 16) with (w / 16 * 2 ^ 4). rewrite lor_add by (change (2 ^ 4) with 16; lia). reflexivity.
Qed.
Definition pair_words (ps : list (N * N)) : list N := flat_map (fun p => [fst p; snd p]) ps.
Lemma rx12_low_eq bs : forall ps c1 c2 a b, length bs = length ps -> Forall is_byte bs -> Forall (fun p => fst p < 65536 /\ snd p < 65536) ps ->
  rx12_low (c1 ++ bs ++ c2) (length c1) (a ++ host_all true 2 (pair_words ps) ++ b) (length a) (length bs) =
  Some (a ++ host_all true 2 (pair_words (zipw (fun p x => (set_low (fst p) (x / 16), set_low (snd p) (x mod 16))) ps bs)) ++ b).
Proof.
  induction bs as [|x bs IH]; intros ps c1 c2 a b L Fb Fw; destruct ps as [|[w v] ps]; try discriminate; [reflexivity|].
  inversion Fb as [|? ? Hx]; subst. inversion Fw as [|? ? [Hw Hv]]; subst. cbn [fst snd] in Hw, Hv. unfold is_byte in Hx.
  cbn [length rx12_low app pair_words host_all flat_map zipw fst snd]. rewrite <- !app_assoc. rewrite get_mid, load16_mid by assumption.
  rewrite (land_shifted x 15 4 : N.land x 240 = _), land_15, !shiftr_div. change (2 ^ 4) with 16. rewrite (N.div_mul _ 16) by lia.
  replace ((x / 16) mod 16) with (x / 16) by lia.
  rewrite low_word by (try assumption; lia). rewrite store16_mid by apply host_length. rewrite (plus2 a (host true 2 (set_low w (x / 16)))) by apply host_length.
  rewrite (app_assoc a), load16_mid by assumption. rewrite land_15.
  rewrite <- N.land_assoc. change (N.land 65520 65520) with 65520. rewrite low_word by (try assumption; lia). rewrite store16_mid by apply host_length.
  assert (P4 : (length a + 4)%nat = length ((a ++ host true 2 (set_low w (x / 16))) ++ host true 2 (set_low v (x mod 16)))) by (rewrite !app_length, !host_length; lia).
  rewrite P4. rewrite (app_assoc (a ++ _)). rewrite (snoc c1 x), <- snoc_len with (x := x). fold (pair_words ps). fold (host_all true 2 (pair_words ps)).
  rewrite IH; [|cbn in L; lia|assumption|assumption]. rewrite <- !app_assoc. reflexivity.
Qed.
Lemma tx12_high_eq ws : forall a b c1 old c2, length old = length ws -> Forall (fun v => v < 65536) ws ->
  tx12_high (a ++ host_all true 2 ws ++ b) (length a) (c1 ++ old ++ c2) (length c1) (length ws) = Some (c1 ++ map (fun w => w / 16 mod 256) ws ++ c2).
Proof.
  induction ws as [|w ws IH]; intros a b c1 old c2 L F; destruct old as [|o old]; try discriminate; [reflexivity|].
  inversion F; subst. cbn [length tx12_high app host_all flat_map map]. rewrite <- !app_assoc. rewrite load16_mid by assumption. rewrite upd_mid.
  rewrite shiftr_div. change (2 ^ 4) with 16. unfold u8. rewrite (plus2 a (host true 2 w)) by apply host_length. rewrite (app_assoc a), (snoc c1), <- snoc_len with (x := w / 16 mod 256).
  fold (host_all true 2 ws). rewrite IH; [|cbn in L; lia|assumption]. rewrite <- app_assoc. reflexivity.
Qed.
Lemma tx12_low_eq ps : forall a b c1 old c2, length old = length ps -> Forall (fun p => fst p < 65536 /\ snd p < 65536) ps ->
  tx12_low (a ++ host_all true 2 (pair_words ps) ++ b) (length a) (c1 ++ old ++ c2) (length c1) (length ps) =
  Some (c1 ++ map (fun p => fst p mod 16 * 16 + snd p mod 16) ps ++ c2).
Proof.
  induction ps as [|[w v] ps IH]; intros a b c1 old c2 L F; destruct old as [|o old]; try discriminate; [reflexivity|].
  inversion F as [|? ? [Hw Hv]]; subst. cbn [fst snd] in Hw, Hv. cbn [length tx12_low app pair_words host_all flat_map map fst snd]. rewrite <- !app_assoc.
  rewrite load16_mid by assumption. rewrite (plus2 a (host true 2 w)) by apply host_length. rewrite (app_assoc a), load16_mid by assumption.
  rewrite get_mid, upd_mid. rewrite N.land_0_r, N.lor_0_l, shiftl_mul, !land_15. change (2 ^ 4) with 16. unfold u8.
  replace ((w mod 16) mod 256 * 16 mod 256) with (w mod 16 * 2 ^ 4) by (change (2 ^ 4) with 16; lia). rewrite lor_add by (change (2 ^ 4) with 16; lia). change (2 ^ 4) with 16.
  replace ((v mod 16) mod 256) with (v mod 16) by lia.
  assert (P4 : (length a + 4)%nat = length ((a ++ host true 2 w) ++ host true 2 v)) by (rewrite !app_length, !host_length; lia).
  rewrite P4. rewrite (app_assoc (a ++ _)). rewrite (snoc c1), <- snoc_len with (x := w mod 16 * 16 + v mod 16). fold (pair_words ps). fold (host_all true 2 (pair_words ps)).
  rewrite IH; [|cbn in L; lia|assumption]. rewrite <- !app_assoc. reflexivity.
Qed.

Lemma Forall_firstn {A} (P : A -> Prop) n l : Forall P l -> Forall P (firstn n l).
Proof. intro H. rewrite <- (firstn_skipn n l) in H. apply Forall_app in H. tauto. Qed.
Lemma Forall_skipn {A} (P : A -> Prop) n l : Forall P l -> Forall P (skipn n l).
Proof. intro H. rewrite <- (firstn_skipn n l) in H. apply Forall_app in H. tauto. Qed.
Lemma host_all_app le n a b : host_all le n (a ++ b) = host_all le n a ++ host_all le n b.
Proof. apply flat_map_app. Qed.
(** effect of the three frames on sixteen words *)
Lemma rx12_1 bs ws pre post rest : length ws = 16%nat -> length bs = 8%nat -> Forall is_byte bs -> Forall (fun v => v < 65536) ws ->
  rx_uint12_1 (bs ++ rest) (pre ++ host_all true 2 ws ++ post) (length pre) 8 =
  Some (pre ++ host_all true 2 (zipw set_high (firstn 8 ws) bs ++ skipn 8 ws) ++ post).
Proof.
  intros L Lb Fb Fw. unfold rx_uint12_1. rewrite <- (firstn_skipn 8 ws) at 1. rewrite !host_all_app, <- !app_assoc. change (N.to_nat 8) with 8%nat.
  pose proof (rx12_high_eq bs (firstn 8 ws) [] rest pre (host_all true 2 (skipn 8 ws) ++ post)) as E. rewrite Lb in E. apply E.
  - rewrite firstn_length. lia.
  - exact Fb.
  - apply Forall_firstn. exact Fw.
Qed.
Lemma rx12_2 bs ws pre post rest : length ws = 16%nat -> length bs = 8%nat -> Forall is_byte bs -> Forall (fun v => v < 65536) ws ->
  rx_uint12_2 (bs ++ rest) (pre ++ host_all true 2 ws ++ post) (length pre + 8) 8 =
  Some (pre ++ host_all true 2 (firstn 8 ws ++ zipw set_high (skipn 8 ws) bs) ++ post).
Proof.
  intros L Lb Fb Fw. unfold rx_uint12_2. rewrite <- (firstn_skipn 8 ws) at 1. rewrite !host_all_app, <- !app_assoc. change (N.to_nat 8) with 8%nat.
  assert (P : (length pre + 8 + 8)%nat = length (pre ++ host_all true 2 (firstn 8 ws))) by (rewrite app_length, host_all_length, firstn_length; lia). rewrite P.
  rewrite (app_assoc pre). rewrite (app_assoc pre (host_all true 2 (firstn 8 ws)) (_ ++ post)).
  pose proof (rx12_high_eq bs (skipn 8 ws) [] rest (pre ++ host_all true 2 (firstn 8 ws)) post) as E. rewrite Lb in E. apply E.
  - rewrite skipn_length. lia.
  - exact Fb.
  - apply Forall_skipn. exact Fw.
Qed.
Lemma pairs_of n : forall ws : list N, length ws = (2 * n)%nat -> Forall (fun v => v < 65536) ws ->
  exists ps, pair_words ps = ws /\ length ps = n /\ Forall (fun p => fst p < 65536 /\ snd p < 65536) ps.
Proof.
  induction n as [|n IH]; intros ws L F.
  - destruct ws; [|discriminate]. exists []. repeat split; constructor.
  - destruct ws as [|a [|b ws]]; cbn in L; try lia. inversion F as [|? ? Fa F1]; subst. inversion F1 as [|? ? Fb F2]; subst.
    destruct (IH ws ltac:(lia) F2) as (ps & A & B & C). exists ((a, b) :: ps). split; [cbn; unfold pair_words in A; rewrite A; reflexivity|]. split; [cbn; lia|]. constructor; auto.
Qed.
Fixpoint lows (ws bs : list N) : list N :=
  match ws, bs with w :: v :: r, x :: s => set_low w (x / 16) :: set_low v (x mod 16) :: lows r s | _, _ => [] end.
Lemma lows_pairs ps : forall bs, pair_words (zipw (fun p x => (set_low (fst p) (x / 16), set_low (snd p) (x mod 16))) ps bs) = lows (pair_words ps) bs.
Proof. induction ps as [|[w v] ps IH]; intros [|x bs]; try reflexivity. cbn. unfold pair_words in IH. rewrite IH. reflexivity. Qed.
Lemma rx12_3 bs ws pre post rest : length ws = 16%nat -> length bs = 8%nat -> Forall is_byte bs -> Forall (fun v => v < 65536) ws ->
  rx_uint12_3 (bs ++ rest) (pre ++ host_all true 2 ws ++ post) (length pre + 16) 8 = Some (pre ++ host_all true 2 (lows ws bs) ++ post).
Proof.
  intros L Lb Fb Fw. unfold rx_uint12_3. destruct (Nat.ltb_spec (length pre + 16) 16); [lia|]. rewrite Nat.add_sub.
  destruct (pairs_of 8 ws L Fw) as (ps & <- & Lp & Fp). rewrite <- lows_pairs. change (N.to_nat 8) with 8%nat.
  pose proof (rx12_low_eq bs ps [] rest pre post) as E. rewrite Lb in E. apply E; auto.
Qed.
Lemma lows_lt ws : forall bs, Forall (fun v => v < 65536) ws -> Forall is_byte bs -> Forall (fun v => v < 65536) (lows ws bs).
Proof.
  assert (X : forall n ws bs, (length ws <= n)%nat -> Forall (fun v => v < 65536) ws -> Forall is_byte bs -> Forall (fun v => v < 65536) (lows ws bs)).
  { induction n as [|n IH]; intros [|w [|v r]] [|x s] L Fw Fb; cbn [lows]; try constructor; try (cbn in L; lia).
    - inversion Fw as [|? ? Hw F1]; subst. inversion Fb; subst. unfold is_byte, set_low in *. lia.
    - inversion Fw as [|? ? Hw F1]; subst. inversion F1 as [|? ? Hv F2]; subst. inversion Fb as [|? ? Hx F3]; subst. unfold is_byte in Hx. constructor; [unfold set_low; lia|].
      apply IH; auto. cbn in L. lia. }
  intros bs. apply (X (length ws)). lia.
Qed.
Lemma zip_lt ws : forall bs, Forall is_byte bs -> Forall (fun v => v < 65536) (zipw set_high ws bs).
Proof.
  induction ws as [|w ws IH]; intros [|x s] F; cbn; constructor.
  - inversion F; subst. unfold is_byte, set_high in *. lia.
  - apply IH. inversion F; assumption.
Qed.
Lemma frame12_bytes cs k : Forall (fun c => c < 4096) cs -> Forall is_byte (frame12 cs k).
Proof.
  intro F. destruct k as [|[|k]]; cbn [frame12].
  - apply Forall_map. apply (Forall_firstn _ 8) in F. eapply Forall_impl; [|exact F]. intros c H. cbn beta in *. unfold is_byte, high8. lia.
  - apply Forall_map. apply (Forall_skipn _ 8) in F. eapply Forall_impl; [|exact F]. intros c H. cbn beta in *. unfold is_byte, high8. lia.
  - assert (X : forall n cs, (length cs <= n)%nat -> Forall is_byte (nibbles cs)).
    { clear. induction n as [|n IH]; intros [|a [|b r]] L; cbn [nibbles]; try constructor; try (cbn in L; lia).
      - unfold is_byte. lia.
      - apply IH. cbn in L. lia. }
    apply (X (length cs)). lia.
Qed.
(** the words after the frame of object [k] *)
Definition words12 (cs ws : list N) (k : nat) : list N :=
  match k with
  | O => zipw set_high (firstn 8 ws) (frame12 cs 0) ++ skipn 8 ws
  | 1%nat => firstn 8 ws ++ zipw set_high (skipn 8 ws) (frame12 cs 1)
  | _ => lows ws (frame12 cs 2)
  end.
Lemma list16 {A} (l : list A) : length l = 16%nat -> exists a0 a1 a2 a3 a4 a5 a6 a7 a8 a9 b0 b1 b2 b3 b4 b5, l = [a0; a1; a2; a3; a4; a5; a6; a7; a8; a9; b0; b1; b2; b3; b4; b5].
Proof. intro H. do 17 (destruct l as [|? l]; try discriminate). repeat eexists. Qed.
Lemma words12_ok cs ws k : length cs = 16%nat -> length ws = 16%nat -> Forall (fun c => c < 4096) cs -> Forall (fun v => v < 65536) ws ->
  length (words12 cs ws k) = 16%nat /\ Forall (fun v => v < 65536) (words12 cs ws k).
Proof.
  intros Lc Lw Fc Fw. pose proof (frame12_bytes cs k Fc) as Fb. split.
  - clear - Lc Lw. destruct (list16 _ Lc) as (? & ? & ? & ? & ? & ? & ? & ? & ? & ? & ? & ? & ? & ? & ? & ? & ->).
    destruct (list16 _ Lw) as (? & ? & ? & ? & ? & ? & ? & ? & ? & ? & ? & ? & ? & ? & ? & ? & ->). destruct k as [|[|k]]; reflexivity.
  - destruct k as [|[|k]]; cbn [words12].
    + apply Forall_app. split; [apply zip_lt; exact Fb|apply Forall_skipn; exact Fw].
    + apply Forall_app. split; [apply Forall_firstn; exact Fw|apply zip_lt; exact Fb].
    + apply lows_lt; [exact Fw|exact Fb].
Qed.
Lemma words12_final cs ws i j k : In [i; j; k] [[0; 1; 2]; [0; 2; 1]; [1; 0; 2]; [1; 2; 0]; [2; 0; 1]; [2; 1; 0]]%nat ->
  length cs = 16%nat -> length ws = 16%nat -> Forall (fun c => c < 4096) cs -> words12 cs (words12 cs (words12 cs ws i) j) k = cs.
Proof.
  intros I Lc Lw F. destruct (list16 _ Lc) as (? & ? & ? & ? & ? & ? & ? & ? & ? & ? & ? & ? & ? & ? & ? & ? & ->).
  destruct (list16 _ Lw) as (? & ? & ? & ? & ? & ? & ? & ? & ? & ? & ? & ? & ? & ? & ? & ? & ->).
  repeat match goal with H : Forall _ (_ :: _) |- _ => inversion H; clear H; subst end.
  cbn [In] in I. repeat (destruct I as [I|I]; [injection I as <- <- <-|]); [..|contradiction];
    cbn [words12 frame12 firstn skipn map zipw app nibbles lows]; unfold set_high, set_low, high8;
    repeat (apply (f_equal2 cons); [lia|]); reflexivity.
Qed.
