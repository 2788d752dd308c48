(** * Proofs about update sequence arrays. *)
From Verif Require Import Base Dev Types Record Spec BaseProofs.

Lemma byte_at_app a b k : 0 <= k -> byte_at (a ++ b) k = if k <? zlen a then byte_at a k else byte_at b (k - zlen a).
Proof.
  intros Hk. unfold byte_at, zlen. destruct (k <? _) eqn:E.
  - apply nth_error_app1. lia.
  - rewrite nth_error_app2 by lia. f_equal. lia.
Qed.

Lemma byte_at_ztake l n k : 0 <= k < n -> byte_at (ztake n l) k = byte_at l k.
Proof. intros. unfold byte_at. apply nth_error_ztake. lia. Qed.
Lemma byte_at_zdrop l n k : 0 <= k -> 0 <= n -> byte_at (zdrop n l) k = byte_at l (n + k).
Proof. intros. unfold byte_at. rewrite nth_error_zdrop by lia. f_equal. lia. Qed.
Lemma byte_at_slice l a b k : 0 <= a -> 0 <= k < b - a -> byte_at (slice l a b) k = byte_at l (a + k).
Proof. intros. unfold slice. rewrite byte_at_ztake, byte_at_zdrop by lia. reflexivity. Qed.

Lemma byte_at_update l a bs k : 0 <= a -> a + zlen bs <= zlen l -> 0 <= k ->
  byte_at (update_range l a bs) k = if (a <=? k) && (k <? a + zlen bs) then byte_at bs (k - a) else byte_at l k.
Proof.
  intros Ha Hl Hk. unfold update_range. pose proof (zlen_nonneg bs).
  rewrite byte_at_app by lia. rewrite zlen_ztake. replace (Z.max 0 (Z.min a (zlen l))) with a by lia.
  destruct (k <? a) eqn:E1.
  - replace ((a <=? k) && _) with false by lia. apply byte_at_ztake. lia.
  - rewrite byte_at_app by lia. destruct (k - a <? zlen bs) eqn:E2.
    + replace ((a <=? k) && _) with true by lia. reflexivity.
    + replace ((a <=? k) && _) with false by lia. rewrite byte_at_zdrop by lia. f_equal. lia.
Qed.

Lemma byte_at_none l k : 0 <= k -> zlen l <= k -> byte_at l k = None.
Proof. intros. apply nth_error_None. unfold zlen in *. lia. Qed.

Lemma byte_at_ext a b : zlen a = zlen b -> (forall k, 0 <= k < zlen a -> byte_at a k = byte_at b k) -> a = b.
Proof.
  intros Hl H. assert (Hn : length a = length b) by (unfold zlen in *; lia). clear Hl.
  assert (H' : forall n, (n < length a)%nat -> nth_error a n = nth_error b n).
  { intros n Hn'. specialize (H (Z.of_nat n) ltac:(unfold zlen; lia)). unfold byte_at in H. now rewrite Nat2Z.id in H. }
  clear H. revert b Hn H'. induction a; intros [|y b] Hn H'; cbn in *; try lia; auto. f_equal.
  - specialize (H' O ltac:(lia)). cbn in H'. congruence.
  - apply IHa; [lia|]. intros n Hn'. apply (H' (S n)). lia.
Qed.

Lemma slice_ext l1 l2 a1 a2 n : 0 <= a1 -> 0 <= a2 -> 0 <= n -> a1 + n <= zlen l1 -> a2 + n <= zlen l2 ->
  (forall k, 0 <= k < n -> byte_at l1 (a1 + k) = byte_at l2 (a2 + k)) -> slice l1 a1 (a1 + n) = slice l2 a2 (a2 + n).
Proof.
  intros. apply byte_at_ext; rewrite !slice_len by lia; [lia|]. intros k Hk. rewrite !byte_at_slice by lia. apply H4; lia.
Qed.

Definition in_end (s : Z) (n : nat) (k : Z) : Prop := exists i, 0 <= i < Z.of_nat n /\ s + 512 * i <= k < s + 512 * i + 2.

Lemma in_end_S s n k : in_end s (S n) k <-> s <= k < s + 2 \/ in_end (s + 512) n k.
Proof.
  unfold in_end. split.
  - intros (i & Hi & Hk). destruct (Z.eq_dec i 0) as [->|]; [left; lia|right]. exists (i - 1). lia.
  - intros [H|(i & Hi & Hk)]; [exists 0; lia|exists (i + 1); lia].
Qed.

(** Complete description of the loop. *)
Lemma fixup_loop_spec usn p n : forall a s data, zlen usn = 2 -> 0 <= a -> 510 <= s ->
  a + 2 * Z.of_nat n <= zlen data -> s + 512 * Z.of_nat n <= zlen data + 510 ->
  exists data' out, fixup_loop n usn p a s data = (data', out) /\ zlen data' = zlen data /\
    (forall k, 0 <= k -> ~ in_end s n k -> byte_at data' k = byte_at data k) /\
    ((out = Ok tt /\ (forall i, 0 <= i < Z.of_nat n -> slice data (s + 512 * i) (s + 512 * i + 2) = usn)
        /\ ((forall k, a <= k < a + 2 * Z.of_nat n -> ~ in_end s n k) ->
            forall i, 0 <= i < Z.of_nat n -> slice data' (s + 512 * i) (s + 512 * i + 2) = slice data (a + 2 * i) (a + 2 * i + 2)))
     \/ (exists i, 0 <= i < Z.of_nat n /\ slice data (s + 512 * i) (s + 512 * i + 2) <> usn /\
           out = Err (EUpdateSequenceNumberMismatch (pos_add p (a + 2 * i)) usn (slice data (s + 512 * i) (s + 512 * i + 2))) /\
           forall j, 0 <= j < i -> slice data (s + 512 * j) (s + 512 * j + 2) = usn)).
Proof.
  induction n as [|n IH]; intros a s data Hu Ha Hs Hal Hsl; cbn [fixup_loop].
  { do 2 eexists; split; [reflexivity|]. split; auto. split; auto. left. split; auto. split; intros; lia. }
  unfold idx_range.
  assert (E1 : get_range data a (a + 2) = Some (slice data a (a + 2))) by (apply get_range_in; lia).
  assert (E2 : get_range data s (s + 2) = Some (slice data s (s + 2))) by (apply get_range_in; lia).
  rewrite E1, E2. destruct (list_eqb (slice data s (s + 2)) usn) eqn:Eq; cbn [negb].
  2: { do 2 eexists; split; [reflexivity|]. split; auto. split; auto. right. exists 0. rewrite !Z.mul_0_r, !Z.add_0_r.
       split; [lia|]. split; [|split; [reflexivity|intros; lia]]. intros H. apply list_eqb_eq in H. congruence. }
  apply list_eqb_eq in Eq.
  assert (Hl2 : zlen (slice data a (a + 2)) = 2) by (rewrite slice_len; lia).
  set (data1 := update_range data s (slice data a (a + 2))).
  assert (Hlen1 : zlen data1 = zlen data) by (apply zlen_update_range; lia).
  assert (Hb1 : forall k, 0 <= k -> ~ s <= k < s + 2 -> byte_at data1 k = byte_at data k).
  { intros k Hk Hn. unfold data1. rewrite byte_at_update by lia. replace ((s <=? k) && _) with false by lia. reflexivity. }
  assert (Hother : forall i, 0 <= i < Z.of_nat n -> slice data1 (s + 512 + 512 * i) (s + 512 + 512 * i + 2) =
                          slice data (s + 512 + 512 * i) (s + 512 + 512 * i + 2)).
  { intros i Hi. apply slice_ext; try lia. intros k Hk. apply Hb1; lia. }
  destruct (IH (a + 2) (s + 512) data1) as (data' & out & E & Hlen & Hun & Hcase); try lia.
  unfold NTFS_BLOCK_SIZE. rewrite E. exists data', out. split; auto. split; [lia|]. split.
  { intros k Hk Hn. rewrite in_end_S in Hn. rewrite Hun by tauto. apply Hb1; tauto. }
  destruct Hcase as [(-> & Hall & Hent)|(i & Hi & Hne & -> & Hpre)].
  - left. split; auto. split.
    + intros i Hi. destruct (Z.eq_dec i 0) as [->|]; [now rewrite !Z.mul_0_r, !Z.add_0_r|].
      rewrite <- (Hall (i - 1)) by lia. rewrite Hother by lia. f_equal; lia.
    + intros Hcl i Hi.
      assert (Hcl2 : forall k, a + 2 <= k < a + 2 + 2 * Z.of_nat n -> ~ in_end (s + 512) n k).
      { intros k Hk Hin. apply (Hcl k); [lia|]. rewrite in_end_S. auto. }
      destruct (Z.eq_dec i 0) as [->|].
      * rewrite !Z.mul_0_r, !Z.add_0_r. apply slice_ext; try lia. intros k Hk. rewrite Hun; [|lia|].
        -- unfold data1. rewrite byte_at_update by lia. replace ((s <=? s + k) && _) with true by lia.
           rewrite byte_at_slice by lia. f_equal. lia.
        -- intros (j & Hj & Hj2). lia.
      * specialize (Hent Hcl2 (i - 1) ltac:(lia)). replace (s + 512 * i) with (s + 512 + 512 * (i - 1)) by lia. rewrite Hent.
        replace (a + 2 + 2 * (i - 1)) with (a + 2 * i) by lia. apply slice_ext; try lia. intros k Hk. apply Hb1; [lia|].
        intros Hin. apply (Hcl (a + 2 * i + k)); [lia|]. rewrite in_end_S. auto.
  - right. exists (i + 1). split; [lia|]. rewrite Hother in Hne by lia. rewrite Hother by lia.
    replace (s + 512 * (i + 1)) with (s + 512 + 512 * i) by lia. split; auto. split.
    { do 3 f_equal. lia. }
    intros j Hj. destruct (Z.eq_dec j 0) as [->|]; [now rewrite !Z.mul_0_r, !Z.add_0_r|].
    rewrite <- (Hpre (j - 1)) by lia. rewrite Hother by lia. f_equal; lia.
Qed.

Lemma in_end_block count k : 0 <= count -> in_end 510 (Z.to_nat count) k <-> at_block_end count k.
Proof.
  intros Hc. unfold in_end, at_block_end, block_end. rewrite Z2Nat.id by lia.
  split; intros (i & Hi & Hk); exists i; lia.
Qed.

(** What [fixup] does for every buffer. *)
Lemma fixup_spec data p : bytes_ok data -> 8 <= zlen data <= U16_MAX ->
  let off := field 2 data 4 in let count := field 2 data 6 - 1 in
  exists data' out, fixup (mkRecord data p) = (mkRecord data' p, out) /\ zlen data' = zlen data /\
   ((~ usa_fits data /\ data' = data /\
      (out = Err (EInvalidUpdateSequenceNumberRange p off (off + 2) (zlen data)) \/ out = Err (EInvalidUpdateSequenceCount p 0) \/
       out = Err (EUpdateSequenceArrayExceedsRecordSize p count (zlen data)))) \/
    (usa_fits data /\
      (forall k, 0 <= k -> ~ at_block_end count k -> byte_at data' k = byte_at data k) /\
      ((out = Ok tt /\ (forall i, 0 <= i < count -> slice data (block_end i) (block_end i + 2) = slice data off (off + 2)) /\
        (array_clear off count -> forall i, 0 <= i < count ->
           slice data' (block_end i) (block_end i + 2) = slice data (off + 2 + 2 * i) (off + 4 + 2 * i))) \/
       (exists i, 0 <= i < count /\ slice data (block_end i) (block_end i + 2) <> slice data off (off + 2) /\
          out = Err (EUpdateSequenceNumberMismatch (pos_add p (off + 2 + 2 * i)) (slice data off (off + 2))
                       (slice data (block_end i) (block_end i + 2))) /\
          forall j, 0 <= j < i -> slice data (block_end j) (block_end j + 2) = slice data off (off + 2))))).
Proof.
  intros Hb Hlen off count. unfold fixup, update_sequence_number, update_sequence_array_count, update_sequence_array_start,
    update_sequence_size, update_sequence_offset. cbn [rec_data rec_position].
  unfold rd_u16. rewrite !rd_in by lia. cbn [rbind]. fold off.
  pose proof (field2_bound data 4 Hb) as Hoff. pose proof (field2_bound data 6 Hb) as Hcnt. fold off in Hoff.
  unfold usa_fits. fold off.
  destruct (get_range data off (off + 2)) as [usn|] eqn:E1; cbn [rbind].
  2: { apply get_range_none in E1. do 2 eexists; split; [reflexivity|]. split; auto. left. split; [lia|]. split; auto. }
  apply get_range_some in E1 as (_ & E1 & ->).
  destruct (field 2 data 6 <? 1) eqn:E2; cbn [rbind].
  { do 2 eexists; split; [reflexivity|]. split; auto. left. split; [lia|]. split; auto. right; left. repeat f_equal. lia. }
  replace (U16_MAX <? off + 2) with false by lia. cbn [rbind]. fold count. unfold NTFS_BLOCK_SIZE.
  destruct ((zlen data <? _) || _) eqn:E3; cbn [rbind].
  { do 2 eexists; split; [reflexivity|]. split; auto. left. split; [lia|]. split; auto. }
  destruct (fixup_loop_spec (slice data off (off + 2)) p (Z.to_nat count) (off + 2) 510 data) as (data' & out & E & Hl & Hun & Hcase); try lia.
  { rewrite slice_len; lia. }
  change (512 - 2) with 510. rewrite E. exists data', out. split; auto. split; auto. right. split; [lia|]. split.
  { intros k Hk Hn. apply Hun; auto. rewrite in_end_block by lia. auto. }
  rewrite Z2Nat.id in Hcase by lia. unfold block_end.
  destruct Hcase as [(-> & Hall & Hent)|(i & Hi & Hne & -> & Hpre)]; [left|right].
  - split; auto. split.
    + intros i Hi. rewrite <- (Hall i Hi). f_equal; lia.
    + intros Hcl i Hi. replace (512 * i + 510) with (510 + 512 * i) by lia. rewrite Hent; auto.
      * f_equal; lia.
      * intros k Hk Hin. apply in_end_block in Hin; [|lia]. apply (Hcl k); auto. lia.
  - exists i. replace (512 * i + 510) with (510 + 512 * i) by lia. split; auto. split; auto. split; auto.
    intros j Hj. rewrite <- (Hpre j Hj). f_equal; lia.
Qed.

(** C02 *)
Lemma fixup_protected orig prot off count usn p :
  bytes_ok prot -> 8 <= zlen prot <= U16_MAX -> field 2 prot 4 = off -> field 2 prot 6 = count + 1 ->
  0 <= count -> off + 2 + 2 * count <= zlen prot -> 512 * count <= zlen prot -> array_clear off count ->
  is_protected orig prot off count usn ->
  exists data, fixup (mkRecord prot p) = (mkRecord data p, Ok tt) /\ zlen data = zlen orig /\
    (forall k, 0 <= k -> ~ off <= k < off + 2 + 2 * count -> byte_at data k = byte_at orig k) /\
    (forall k, off <= k < off + 2 + 2 * count -> byte_at data k = byte_at prot k).
Proof.
  intros Hb Hlen Hoff Hcnt Hc Ha Hs Hcl [P1 P2 P3 P4 P5 P6].
  pose proof (field2_bound prot 4 Hb) as Hoffb. rewrite Hoff in Hoffb.
  destruct (fixup_spec prot p Hb Hlen) as (data & out & E & Hl & Hcase). rewrite Hoff, Hcnt in Hcase.
  replace (count + 1 - 1) with count in Hcase by lia. exists data.
  assert (Hfit : usa_fits prot) by (unfold usa_fits; rewrite Hoff, Hcnt; lia).
  destruct Hcase as [(Hn & _)|(_ & Hun & [(-> & _ & Hent)|(i & Hi & Hne & _)])]; [tauto| |].
  2: { exfalso. apply Hne. rewrite P5, P3 by auto. auto. }
  split; auto. split; [lia|]. specialize (Hent Hcl). split.
  - intros k Hk Hout. destruct (Z_lt_le_dec k (zlen prot)) as [Hlt|Hge].
    2: { rewrite !byte_at_none by lia. reflexivity. }
    assert (Hdec : at_block_end count k \/ ~ at_block_end count k).
    { unfold at_block_end, block_end. destruct ((510 <=? k mod 512) && (k / 512 <? count)) eqn:Ed.
      - left. exists (k / 512). lia.
      - right. intros (i & Hi & Hi2). assert (k / 512 = i) by lia. lia. }
    destruct Hdec as [(i & Hi & Hk2)|Hne]; [|now rewrite Hun, P6].
    specialize (Hent i Hi). rewrite (P4 i Hi) in Hent.
    assert (Hbe : block_end i = 512 * i + 510) by reflexivity.
    assert (Hx : forall l, byte_at l k = byte_at (slice l (block_end i) (block_end i + 2)) (k - block_end i)).
    { intros l. rewrite byte_at_slice by lia. f_equal. lia. }
    rewrite (Hx data), (Hx orig). now rewrite Hent.
  - intros k Hk. apply Hun; [lia|]. now apply Hcl.
Qed.

(** C03 *)
Lemma fixup_exact data p r' out : bytes_ok data -> 8 <= zlen data <= U16_MAX -> fixup (mkRecord data p) = (r', out) ->
  let off := field 2 data 4 in let count := field 2 data 6 - 1 in
  let intact i := slice data (block_end i) (block_end i + 2) = slice data off (off + 2) in
  (out = Ok tt <-> usa_fits data /\ forall i, 0 <= i < count -> intact i) /\
  (out = Ok tt -> zlen (rec_data r') = zlen data /\
     (forall k, 0 <= k -> ~ at_block_end count k -> byte_at (rec_data r') k = byte_at data k) /\
     (array_clear off count -> forall i, 0 <= i < count ->
        slice (rec_data r') (block_end i) (block_end i + 2) = slice data (off + 2 + 2 * i) (off + 4 + 2 * i))) /\
  (usa_fits data -> (exists i, 0 <= i < count /\ ~ intact i) ->
     exists i, 0 <= i < count /\ ~ intact i /\ (forall j, 0 <= j < i -> intact j) /\
       out = Err (EUpdateSequenceNumberMismatch (pos_add p (off + 2 + 2 * i)) (slice data off (off + 2)) (slice data (block_end i) (block_end i + 2)))).
Proof.
  intros Hb Hl E off count intact. destruct (fixup_spec data p Hb Hl) as (data' & out' & E' & Hl' & Hc).
  rewrite E in E'. injection E' as -> <-. cbn [rec_data]. fold off count in Hc.
  destruct Hc as [(Hn & -> & Ho)|(Hfit & Hun & [(-> & Hall & Hent)|(i & Hi & Hne & -> & Hpre)])].
  - assert (out <> Ok tt) by (destruct Ho as [->|[->| ->]]; discriminate). split; [split; tauto|]. split; tauto.
  - split; [split; auto|]. split; auto. intros _ (i & Hi & Hne). exfalso. apply Hne, Hall, Hi.
  - split; [split; [discriminate|]|].
    + intros (_ & Hall). exfalso. apply Hne, Hall, Hi.
    + split; [discriminate|]. intros _ _. exists i. auto.
Qed.

(** C04 *)
Lemma fixup_outcome data p : bytes_ok data -> 8 <= zlen data <= U16_MAX ->
  match snd (fixup (mkRecord data p)) with
  | Ok _ => True
  | Err (EInvalidUpdateSequenceNumberRange _ _ _ _) | Err (EInvalidUpdateSequenceCount _ _)
  | Err (EUpdateSequenceArrayExceedsRecordSize _ _ _) | Err (EUpdateSequenceNumberMismatch _ _ _) => True
  | _ => False
  end.
Proof.
  intros Hb Hl. destruct (fixup_spec data p Hb Hl) as (data' & out' & E' & Hl' & Hc). rewrite E'. cbn [snd].
  destruct Hc as [(Hn & -> & [->|[->| ->]])|(Hfit & Hun & [(-> & Hall & Hent)|(i & Hi & Hne & -> & Hpre)])]; exact I.
Qed.

Lemma fixup_large_panic : exists data p, bytes_ok data /\ zlen data = 65536 /\ snd (fixup (mkRecord data p)) = Panic.
Proof.
  exists ([70; 73; 76; 69; 254; 255; 1; 0] ++ zrepeat 0 65528), None. split; [|split].
  - apply bytes_okb_ok. vm_compute. reflexivity.
  - vm_compute. reflexivity.
  - vm_compute. reflexivity.
Qed.

(** Deciding [is_protected] pointwise for concrete lists. *)
Definition at_block_endb (count k : Z) : bool := (510 <=? k mod 512) && (k / 512 <? count).
Lemma at_block_endb_ok count k : 0 <= k -> at_block_endb count k = true -> at_block_end count k.
Proof. intros Hk. unfold at_block_endb, at_block_end, block_end. intros H. exists (k / 512). lia. Qed.

Definition same_byte (a b : option Z) : bool :=
  match a, b with Some x, Some y => x =? y | None, None => true | _, _ => false end.
Lemma same_byte_ok a b : same_byte a b = true -> a = b.
Proof. destruct a, b; cbn; try discriminate; auto. intros. f_equal. lia. Qed.

Lemma rest_check orig prot off count n : zlen orig = Z.of_nat n -> zlen prot = Z.of_nat n ->
  forallb (fun i => let k := Z.of_nat i in
    ((off <=? k) && (k <? off + 2 + 2 * count)) || at_block_endb count k || same_byte (byte_at prot k) (byte_at orig k)) (seq 0 n) = true ->
  forall k, 0 <= k -> ~ off <= k < off + 2 + 2 * count -> ~ at_block_end count k -> byte_at prot k = byte_at orig k.
Proof.
  intros Ho Hp H k Hk H1 H2. destruct (Z_lt_le_dec k (Z.of_nat n)) as [Hlt|Hge].
  2: { rewrite !byte_at_none by lia. reflexivity. }
  rewrite forallb_forall in H. specialize (H (Z.to_nat k)). cbv zeta in H. rewrite Z2Nat.id in H by lia.
  specialize (H ltac:(apply in_seq; lia)).
  apply orb_prop in H as [H|H]; [apply orb_prop in H as [H|H]|].
  - lia.
  - exfalso. apply H2. now apply at_block_endb_ok.
  - now apply same_byte_ok.
Qed.
