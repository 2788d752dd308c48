(** * Lemmas about byte strings. *)
From Coq Require Export Lia ZifyBool ZifyNat.
From Verif Require Import Base.

Ltac Zify.zify_post_hook ::= Z.div_mod_to_equations.

Ltac splits := repeat match goal with |- _ /\ _ => split end.

Lemma zlen_nonneg {A} (l : list A) : 0 <= zlen l.
Proof. unfold zlen; lia. Qed.
#[export] Hint Resolve zlen_nonneg : core.

Lemma zlen_nil {A} : zlen (@nil A) = 0. Proof. reflexivity. Qed.
Lemma zlen_cons {A} (x : A) l : zlen (x :: l) = 1 + zlen l.
Proof. unfold zlen; cbn [length]; lia. Qed.
Lemma zlen_app {A} (a b : list A) : zlen (a ++ b) = zlen a + zlen b.
Proof. unfold zlen; rewrite app_length; lia. Qed.
Lemma zlen_0 {A} (l : list A) : zlen l = 0 -> l = [].
Proof. destruct l; auto. rewrite zlen_cons; intros. pose proof (zlen_nonneg l); lia. Qed.
Lemma zlen_map {A B} (f : A -> B) l : zlen (map f l) = zlen l.
Proof. unfold zlen; now rewrite map_length. Qed.

Lemma ztake_firstn {A} (l : list A) : forall n, ztake n l = firstn (Z.to_nat n) l.
Proof.
  induction l; intros; cbn [ztake].
  - now rewrite firstn_nil.
  - destruct (n <=? 0) eqn:E.
    + replace (Z.to_nat n) with O by lia. reflexivity.
    + replace (Z.to_nat n) with (S (Z.to_nat (n - 1))) by lia. cbn. now rewrite IHl.
Qed.

Lemma zdrop_skipn {A} (l : list A) : forall n, zdrop n l = skipn (Z.to_nat n) l.
Proof.
  induction l; intros; cbn [zdrop].
  - now rewrite skipn_nil.
  - destruct (n <=? 0) eqn:E.
    + replace (Z.to_nat n) with O by lia. reflexivity.
    + replace (Z.to_nat n) with (S (Z.to_nat (n - 1))) by lia. cbn. now rewrite IHl.
Qed.

Lemma zlen_ztake {A} n (l : list A) : zlen (ztake n l) = Z.max 0 (Z.min n (zlen l)).
Proof. rewrite ztake_firstn; unfold zlen; rewrite firstn_length; lia. Qed.

Lemma zlen_zdrop {A} n (l : list A) : zlen (zdrop n l) = Z.max 0 (zlen l - Z.max 0 n).
Proof. rewrite zdrop_skipn; unfold zlen; rewrite skipn_length; lia. Qed.

Lemma ztake_all {A} n (l : list A) : zlen l <= n -> ztake n l = l.
Proof. intros. rewrite ztake_firstn. apply firstn_all2. unfold zlen in *; lia. Qed.

Lemma zdrop_all {A} n (l : list A) : zlen l <= n -> zdrop n l = [].
Proof. intros. rewrite zdrop_skipn. apply skipn_all2. unfold zlen in *; lia. Qed.

Lemma ztake_0 {A} n (l : list A) : n <= 0 -> ztake n l = [].
Proof. intros. rewrite ztake_firstn. now replace (Z.to_nat n) with O by lia. Qed.

Lemma zdrop_0 {A} n (l : list A) : n <= 0 -> zdrop n l = l.
Proof. intros. rewrite zdrop_skipn. now replace (Z.to_nat n) with O by lia. Qed.

Lemma ztake_zdrop {A} n (l : list A) : ztake n l ++ zdrop n l = l.
Proof. rewrite ztake_firstn, zdrop_skipn. apply firstn_skipn. Qed.

Lemma ztake_app {A} n (a b : list A) : ztake n (a ++ b) = ztake n a ++ ztake (n - zlen a) b.
Proof.
  rewrite !ztake_firstn, firstn_app. do 2 f_equal. unfold zlen; lia.
Qed.

Lemma zdrop_app {A} n (a b : list A) : zdrop n (a ++ b) = zdrop n a ++ zdrop (n - zlen a) b.
Proof.
  rewrite !zdrop_skipn, skipn_app. do 2 f_equal. unfold zlen; lia.
Qed.

Lemma zdrop_zdrop {A} a b (l : list A) : 0 <= a -> 0 <= b -> zdrop a (zdrop b l) = zdrop (a + b) l.
Proof.
  intros. rewrite !zdrop_skipn.
  replace (Z.to_nat (a + b)) with (Z.to_nat b + Z.to_nat a)%nat by lia.
  generalize (Z.to_nat a) (Z.to_nat b); clear; intros a b. revert l; induction b; intros; cbn; auto.
  destruct l; cbn; auto. now rewrite skipn_nil.
Qed.

Lemma ztake_ztake {A} a b (l : list A) : ztake a (ztake b l) = ztake (Z.min a b) l.
Proof. rewrite !ztake_firstn, firstn_firstn. f_equal; lia. Qed.

Lemma ztake_zdrop_comm {A} a b (l : list A) : 0 <= a -> 0 <= b -> ztake a (zdrop b l) = zdrop b (ztake (a + b) l).
Proof.
  intros. rewrite !ztake_firstn, !zdrop_skipn, firstn_skipn_comm. do 2 f_equal; lia.
Qed.

Lemma zdrop_ztake {A} a b (l : list A) : 0 <= b -> zdrop b (ztake a l) = ztake (a - b) (zdrop b l).
Proof.
  intros. destruct (Z_le_gt_dec (a - b) 0).
  - rewrite (ztake_0 (a - b)) by lia. apply zdrop_all. rewrite zlen_ztake. lia.
  - rewrite ztake_zdrop_comm by lia. do 2 f_equal; lia.
Qed.

Lemma ztake_split {A} a b (l : list A) : 0 <= a -> 0 <= b -> ztake (a + b) l = ztake a l ++ ztake b (zdrop a l).
Proof.
  intros. rewrite <- (ztake_zdrop a l) at 1. rewrite ztake_app, ztake_ztake, zlen_ztake.
  replace (Z.min (a + b) a) with a by lia. f_equal.
  destruct (Z_le_gt_dec (zlen l) a).
  - now rewrite (zdrop_all a) by lia.
  - f_equal. lia.
Qed.

Lemma ztake_nil {A} n : ztake n (@nil A) = []. Proof. reflexivity. Qed.
Lemma zdrop_nil {A} n : zdrop n (@nil A) = []. Proof. reflexivity. Qed.

Lemma nth_error_ztake {A} n (l : list A) i : (Z.of_nat i < n) -> nth_error (ztake n l) i = nth_error l i.
Proof.
  intros. rewrite ztake_firstn. assert (i < Z.to_nat n)%nat by lia. revert H0.
  generalize (Z.to_nat n). revert l. induction i; intros; destruct n0; try lia; destruct l; cbn; auto.
  apply IHi; lia.
Qed.

Lemma nth_error_zdrop {A} n (l : list A) i : 0 <= n -> nth_error (zdrop n l) i = nth_error l (Z.to_nat n + i).
Proof.
  intros. rewrite zdrop_skipn. generalize (Z.to_nat n). revert l.
  intros l n0; revert l; induction n0; intros; cbn; auto. destruct l; cbn; auto. now destruct i.
Qed.

Lemma zlen_zrepeat x n : zlen (zrepeat x n) = Z.max 0 n.
Proof. unfold zlen, zrepeat. rewrite repeat_length. lia. Qed.

Lemma repeat_firstn {A} (x : A) : forall n m, firstn n (repeat x m) = repeat x (Nat.min n m).
Proof. induction n; intros; destruct m; cbn; auto. f_equal; apply IHn. Qed.
Lemma repeat_skipn {A} (x : A) : forall n m, skipn n (repeat x m) = repeat x (m - n).
Proof. induction n; intros; destruct m; cbn; auto. Qed.

Lemma ztake_zrepeat x a n : ztake a (zrepeat x n) = zrepeat x (Z.min a n).
Proof. unfold zrepeat. rewrite ztake_firstn, repeat_firstn. f_equal; lia. Qed.
Lemma zdrop_zrepeat x a n : 0 <= a -> zdrop a (zrepeat x n) = zrepeat x (n - a).
Proof. intros. unfold zrepeat. rewrite zdrop_skipn, repeat_skipn. f_equal; lia. Qed.

Lemma slice_len l a b : 0 <= a -> a <= b -> b <= zlen l -> zlen (slice l a b) = b - a.
Proof. intros. unfold slice. rewrite zlen_ztake, zlen_zdrop. lia. Qed.

Lemma get_range_some l a b s :
  get_range l a b = Some s <-> 0 <= a <= b /\ b <= zlen l /\ s = slice l a b.
Proof.
  unfold get_range. destruct ((0 <=? a) && (a <=? b) && (b <=? zlen l)) eqn:E.
  - split; [intros [= <-]|intros (?&?&->); auto]. repeat split; lia.
  - split; [discriminate|intros (?&?&->); lia].
Qed.

Lemma get_range_none l a b : get_range l a b = None <-> ~ (0 <= a <= b /\ b <= zlen l).
Proof.
  unfold get_range. destruct ((0 <=? a) && (a <=? b) && (b <=? zlen l)) eqn:E.
  - split; [discriminate|]. intros; lia.
  - split; auto. intros; lia.
Qed.

Lemma list_eqb_eq a : forall b, list_eqb a b = true <-> a = b.
Proof.
  induction a; destruct b; cbn; split; intros; try easy.
  - apply andb_prop in H. destruct H. apply IHa in H0. f_equal; auto. lia.
  - injection H as -> ->. rewrite Z.eqb_refl. cbn. now apply IHa.
Qed.

Lemma rd_ok n l off v : rd n l off = Ok v <-> (0 <= off /\ 0 <= n /\ off + n <= zlen l /\ v = field n l off).
Proof.
  unfold rd, field. destruct (get_range l off (off + n)) eqn:E.
  - apply get_range_some in E as (?&?&->). split; [intros [= <-]|intros (?&?&?&->); auto]. repeat split; lia.
  - apply get_range_none in E. split; [discriminate|]. intros (?&?&?&_). lia.
Qed.

Lemma rd_in n l off : 0 <= off -> 0 <= n -> off + n <= zlen l -> rd n l off = Ok (field n l off).
Proof. intros. now apply rd_ok. Qed.

Lemma rd_cases n l off : rd n l off = Panic \/ rd n l off = Ok (field n l off).
Proof. unfold rd, field. destruct get_range eqn:E; auto. apply get_range_some in E as (?&?&->). auto. Qed.

(** ** Bytes *)
Lemma bytes_ok_app a b : bytes_ok (a ++ b) <-> bytes_ok a /\ bytes_ok b.
Proof. apply Forall_app. Qed.
Lemma bytes_ok_ztake n l : bytes_ok l -> bytes_ok (ztake n l).
Proof. intros. rewrite <- (ztake_zdrop n l) in H. now apply bytes_ok_app in H. Qed.
Lemma bytes_ok_zdrop n l : bytes_ok l -> bytes_ok (zdrop n l).
Proof. intros. rewrite <- (ztake_zdrop n l) in H. now apply bytes_ok_app in H. Qed.
Lemma bytes_ok_slice l a b : bytes_ok l -> bytes_ok (slice l a b).
Proof. intros; now apply bytes_ok_ztake, bytes_ok_zdrop. Qed.

Lemma le_val_nonneg l : bytes_ok l -> 0 <= le_val l.
Proof. induction 1; cbn [le_val]; [lia|]. unfold is_byte in *; lia. Qed.
Lemma le_val_bound l : bytes_ok l -> le_val l < 256 ^ zlen l.
Proof.
  induction 1; [cbn; lia|]. rewrite zlen_cons. cbn [le_val].
  rewrite Z.pow_add_r by (try lia; apply zlen_nonneg). change (256 ^ 1) with 256. unfold is_byte in *. lia.
Qed.
Lemma field_nonneg n l off : bytes_ok l -> 0 <= field n l off.
Proof. intros; now apply le_val_nonneg, bytes_ok_slice. Qed.
Lemma field_bound n l off : bytes_ok l -> 0 <= n -> field n l off < 256 ^ n.
Proof.
  intros. unfold field. eapply Z.lt_le_trans; [apply le_val_bound, bytes_ok_slice; auto|].
  apply Z.pow_le_mono_r; try lia. unfold slice. rewrite zlen_ztake. lia.
Qed.
Lemma field1_bound l off : bytes_ok l -> 0 <= field 1 l off <= 255.
Proof. intros. pose proof (field_nonneg 1 l off H). pose proof (field_bound 1 l off H). lia. Qed.
Lemma field2_bound l off : bytes_ok l -> 0 <= field 2 l off <= U16_MAX.
Proof. intros. pose proof (field_nonneg 2 l off H). pose proof (field_bound 2 l off H). unfold U16_MAX. lia. Qed.
Lemma field4_bound l off : bytes_ok l -> 0 <= field 4 l off <= U32_MAX.
Proof. intros. pose proof (field_nonneg 4 l off H). pose proof (field_bound 4 l off H). unfold U32_MAX. lia. Qed.
Lemma field8_bound l off : bytes_ok l -> 0 <= field 8 l off <= U64_MAX.
Proof. intros. pose proof (field_nonneg 8 l off H). pose proof (field_bound 8 l off H). unfold U64_MAX. lia. Qed.

(** ** [update_range] *)
Lemma zlen_update_range l a bs : 0 <= a -> a + zlen bs <= zlen l -> zlen (update_range l a bs) = zlen l.
Proof.
  intros. unfold update_range. rewrite !zlen_app, zlen_ztake, zlen_zdrop.
  pose proof (zlen_nonneg bs). lia.
Qed.

(** ** [res] and arithmetic helpers *)
Lemma rbind_ok {A B} (r : res A) (f : A -> res B) b : rbind r f = Ok b <-> exists a, r = Ok a /\ f a = Ok b.
Proof.
  destruct r; cbn; split; intros H; try discriminate; try (destruct H as (?&?&?); discriminate).
  - eauto.
  - now destruct H as (?&[= <-]&?).
Qed.

Lemma checked_add64_some a b c : checked_add64 a b = Some c <-> c = a + b /\ a + b <= U64_MAX.
Proof. unfold checked_add64. destruct (_ <=? _) eqn:E; split; intros H; try discriminate; try lia. now injection H as <-; lia. f_equal; lia. Qed.
Lemma checked_sub64_some a b c : checked_sub64 a b = Some c <-> c = a - b /\ b <= a.
Proof. unfold checked_sub64. destruct (_ <=? _) eqn:E; split; intros H; try discriminate; try lia. now injection H as <-; lia. f_equal; lia. Qed.
Lemma checked_mul64_some a b c : checked_mul64 a b = Some c <-> c = a * b /\ a * b <= U64_MAX.
Proof. unfold checked_mul64. destruct (_ <=? _) eqn:E; split; intros H; try discriminate; try lia. now injection H as <-; lia. f_equal; lia. Qed.

Lemma get_range_in l a b : 0 <= a <= b -> b <= zlen l -> get_range l a b = Some (slice l a b).
Proof. intros. apply get_range_some. auto. Qed.

(** Deciding [bytes_ok] for concrete lists. *)
Definition bytes_okb (l : list Z) : bool := forallb (fun b => (0 <=? b) && (b <=? 255)) l.
Lemma bytes_okb_ok l : bytes_okb l = true -> bytes_ok l.
Proof. unfold bytes_okb. rewrite forallb_forall. intros H. apply Forall_forall. intros x Hx. specialize (H x Hx). unfold is_byte. lia. Qed.
