(** * Consequences of step-wise refinement of a cursor, for any reader. *)
From Verif Require Import Base Dev Types DataRuns Stream Spec BaseProofs DevProofs.

(** [read]/[seek] behave like a cursor over [content] on all devices satisfying [good]. *)
Record refines {S} (read : S -> Z -> dev -> dev * (S * res (list Z)))
  (seek : S -> seekfrom -> dev -> dev * (S * res Z)) (I : S -> Prop) (posf : S -> Z)
  (good : dev -> Prop) (content : list Z) (size : Z) : Prop := {
  rf_pos : forall s, I s -> 0 <= posf s <= U64_MAX;
  rf_read : forall s d n, I s -> good d -> 0 <= n -> exists d' s',
    read s n d = (d', (s', Ok (ztake n (zdrop (posf s) content)))) /\ I s' /\ good d' /\
    posf s' = posf s + zlen (ztake n (zdrop (posf s) content));
  rf_seek : forall s d sf, I s -> good d -> seek_arg_ok sf ->
    let q := seek_target size (posf s) sf in exists d' s',
    good d' /\ I s' /\
    ((0 <= q <= U64_MAX /\ seek s sf d = (d', (s', Ok q)) /\ posf s' = q) \/
     (~ 0 <= q <= U64_MAX /\ seek s sf d = (d', (s', Err (EIo InvalidInput))) /\ s' = s))
}.

Section Consequences.
  Context {S} (read : S -> Z -> dev -> dev * (S * res (list Z))) (seek : S -> seekfrom -> dev -> dev * (S * res Z))
    (I : S -> Prop) (posf : S -> Z) (good : dev -> Prop) (content : list Z) (size : Z)
    (R : refines read seek I posf good content size).

  Lemma refines_step s d o : I s -> good d -> op_ok o -> exists d' s',
    reader_step read seek s d o = (d', s', snd (cursor_step content size (posf s) o)) /\ I s' /\ good d' /\
    posf s' = fst (cursor_step content size (posf s) o).
  Proof.
    intros Hi Hg Ho. destruct o as [n|sf]; cbn [reader_step cursor_step op_ok] in *.
    - destruct (rf_read _ _ _ _ _ _ _ R s d n Hi Hg) as (d' & s' & E & H1 & H2 & H3); [lia|]. rewrite E. exists d', s'. auto.
    - destruct (rf_seek _ _ _ _ _ _ _ R s d sf Hi Hg Ho) as (d' & s' & Hg' & Hi' & [(Hq & E & Hp)|(Hq & E & ->)]); rewrite E.
      + replace ((0 <=? _) && (_ <=? U64_MAX)) with true by lia. exists d', s'. auto.
      + destruct ((0 <=? seek_target size (posf s) sf) && (seek_target size (posf s) sf <=? U64_MAX)) eqn:E2; [lia|]. exists d', s. auto.
  Qed.

  Lemma refines_history l : forall s d, I s -> good d -> Forall op_ok l ->
    reader_run read seek s d l = cursor_run content size (posf s) l.
  Proof.
    induction l as [|o l IH]; intros s d Hi Hg Hl; cbn [reader_run cursor_run]; auto. inversion Hl; subst.
    destruct (refines_step s d o Hi Hg H1) as (d' & s' & E & H3 & H4 & H5). rewrite E.
    destruct (cursor_step content size (posf s) o) as [p' r] eqn:Ec. cbn [fst snd] in *. f_equal. subst p'. apply IH; auto.
  Qed.

  Lemma refines_exec l : forall s d d' s', I s -> good d -> Forall op_ok l ->
    reader_exec read seek s d l = (d', s') -> I s' /\ good d'.
  Proof.
    induction l as [|o l IH]; intros s d d' s' Hi Hg Hl H; cbn [reader_exec] in H.
    - injection H as <- <-. auto.
    - inversion Hl; subst. destruct (refines_step s d o Hi Hg H2) as (d1 & s1 & E & H4 & H5 & H6). rewrite E in H. eauto.
  Qed.

  Lemma refines_read_exact_loop fuel : forall s d n acc, I s -> good d -> 0 <= n -> (2 <= fuel)%nat ->
    exists d' s', I s' /\ good d' /\
     ((posf s + n <= zlen content /\ rs_read_exact_loop read fuel s n acc d = (d', (s', Ok (acc ++ ztake n (zdrop (posf s) content)))) /\
       posf s' = posf s + n) \/
      (zlen content < posf s + n /\ 0 < n /\ rs_read_exact_loop read fuel s n acc d = (d', (s', Err (EIo UnexpectedEof)))) \/
      (n = 0 /\ rs_read_exact_loop read fuel s n acc d = (d', (s', Ok acc)) /\ posf s' = posf s)).
  Proof.
    intros s d n acc Hi Hg Hn Hf. pose proof (rf_pos _ _ _ _ _ _ _ R s Hi) as Hp.
    destruct (Z.eq_dec n 0) as [->|Hn0].
    { exists d, s. split; auto. split; auto. right; right. split; auto. split; auto. destruct fuel; cbn; auto. }
    destruct fuel as [|fuel]; [lia|]. cbn [rs_read_exact_loop]. replace (n <=? 0) with false by lia.
    destruct (rf_read _ _ _ _ _ _ _ R s d n Hi Hg Hn) as (d' & s' & E & H1 & H2 & H3). rewrite E.
    set (bs := ztake n (zdrop (posf s) content)) in *.
    assert (Hz : zlen bs = Z.max 0 (Z.min n (zlen content - posf s))).
    { unfold bs. rewrite zlen_ztake, zlen_zdrop. lia. }
    destruct bs as [|b t] eqn:Eb.
    - exists d', s'. split; auto. split; auto. right; left. rewrite zlen_nil in Hz. repeat split; auto; lia.
    - rewrite <- Eb in *. assert (0 < zlen bs) by (rewrite Eb, zlen_cons; pose proof (zlen_nonneg t); lia).
      destruct (Z_le_gt_dec (posf s + n) (zlen content)) as [Hle|Hgt].
      + exists d', s'. split; auto. split; auto. left. split; auto. split; [|lia].
        destruct fuel; cbn [rs_read_exact_loop]; now replace (n - zlen bs <=? 0) with true by lia.
      + destruct fuel as [|fuel]; [lia|]. cbn [rs_read_exact_loop]. replace (n - zlen bs <=? 0) with false by lia.
        destruct (rf_read _ _ _ _ _ _ _ R s' d' (n - zlen bs) H1 H2) as (d2 & s2 & E2 & K1 & K2 & K3); [lia|]. rewrite E2.
        rewrite (zdrop_all (posf s')) by lia. rewrite ztake_nil.
        exists d2, s2. split; auto. split; auto. right; left. repeat split; auto; lia.
  Qed.

  Lemma refines_read_exact s d n : I s -> good d -> 0 <= n ->
    exists d' s', I s' /\ good d' /\
     ((posf s + n <= zlen content /\ rs_read_exact read s n d = (d', (s', Ok (ztake n (zdrop (posf s) content)))) /\
       posf s' = posf s + n) \/
      (zlen content < posf s + n /\ 0 < n /\ rs_read_exact read s n d = (d', (s', Err (EIo UnexpectedEof)))) \/
      (n = 0 /\ rs_read_exact read s n d = (d', (s', Ok [])) /\ posf s' = posf s)).
  Proof.
    intros. destruct (Z.eq_dec n 0) as [->|Hn].
    - exists d, s. split; auto. split; auto. right; right. repeat split; auto.
      unfold rs_read_exact. cbn [Z.to_nat Nat.add]. destruct (length (d_reads d) + length (d_seeks d) + 1)%nat; reflexivity.
    - unfold rs_read_exact. apply refines_read_exact_loop; auto. lia.
  Qed.
End Consequences.

Lemma multi_refines {S} (read : S -> Z -> dev -> dev * (S * res (list Z))) (seek : S -> seekfrom -> dev -> dev * (S * res Z))
  (I : nat -> S -> Prop) (posf : S -> Z) (good : dev -> Prop) (content : nat -> list Z) (size : nat -> Z) :
  (forall i, refines read seek (I i) posf good (content i) (size i)) ->
  forall l f d i, (forall i, I i (f i)) -> good d -> Forall (fun x => op_ok (snd x)) l ->
  of_reader i (multi_run read seek f d l) = cursor_run (content i) (size i) (posf (f i)) (of_reader i l).
Proof.
  intros R. induction l as [|(j & o) l IH]; intros f d i Hf Hg Hl; [reflexivity|]. inversion Hl; subst. cbn [snd] in *.
  cbn [multi_run]. destruct (refines_step _ _ _ _ _ _ _ (R j) (f j) d o (Hf j) Hg H1) as (d' & s' & E & Hi & Hg' & Hp). rewrite E.
  assert (Hf' : forall i, I i (set_at f j s' i)).
  { intros k. unfold set_at. destruct (Nat.eqb k j) eqn:Ek; [|auto]. apply Nat.eqb_eq in Ek. now subst. }
  cbn [of_reader]. destruct (Nat.eqb j i) eqn:Eji.
  - apply Nat.eqb_eq in Eji. subst j. cbn [cursor_run]. rewrite (surjective_pairing (cursor_step _ _ _ _)). f_equal.
    rewrite IH by auto. unfold set_at. rewrite Nat.eqb_refl. now rewrite Hp.
  - rewrite IH by auto. unfold set_at. rewrite Nat.eqb_sym, Eji. reflexivity.
Qed.
