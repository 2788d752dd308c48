(** * The example program on a stored volume: lemmas about the parts. *)
From Verif Require Import Base Dev Types Record DataRuns Stream NonResident Resident BootSector Attribute File Structured AttrList Upcase Index Shell
  Spec SpecMisc SpecValues SpecIndex SpecVolume BaseProofs DevProofs ReaderProofs RecordProofs StreamProofs NonResidentProofs BootSectorProofs AttributeProofs FileProofs
  StructuredProofs ValueProofs AttrListProofs MiscProofs NodeProofs IndexProofs DirectoryProofs NameFindProofs IndexClaims UpcaseProofs EvolveProofs AccessProofs PropsValues.
From Coq Require Import Lia.

(** ** Texts *)
Lemma before_backslash_none l : ~ In 92 l -> before_last_backslash l = None.
Proof.
  induction l as [|c t IH]; intros H; [reflexivity|]. cbn [before_last_backslash]. rewrite IH by (intros K; apply H; now right).
  destruct (c =? 92) eqn:E; auto. exfalso. apply H. left. lia.
Qed.
Lemma before_backslash_some a b : ~ In 92 b -> before_last_backslash (a ++ [92] ++ b) = Some a.
Proof.
  intros H. induction a as [|c t IH]; cbn [app before_last_backslash] in *.
  - now rewrite before_backslash_none.
  - now rewrite IH.
Qed.

Lemma split_colon_spec arg : forall a b, split_colon arg = (a, b) -> splits arg a b.
Proof.
  induction arg as [|c t IH]; intros a b E; cbn [split_colon] in E.
  - injection E as <- <-. split; [auto|]. right. auto.
  - destruct (c =? 58) eqn:Ec.
    + injection E as <- <-. assert (c = 58) by lia. subst c. split; [auto|]. left. reflexivity.
    + destruct (split_colon t) as [a' b']. injection E as <- <-. destruct (IH _ _ eq_refl) as (H1 & H2). split.
      * intros [H|H]; [lia|tauto].
      * destruct H2 as [->|(-> & ->)]; [left; reflexivity|right; auto].
Qed.
Lemma splits_fun arg a b a' b' : splits arg a b -> splits arg a' b' -> a = a' /\ b = b'.
Proof.
  intros (H1 & H2) (H3 & H4). revert arg a' H1 H2 H3 H4. induction a as [|x a IH]; intros arg [|y a'] H1 H2 H3 H4.
  - destruct H2 as [->|(-> & ->)], H4 as [H4|(H4 & ->)]; try discriminate; auto. now injection H4 as <-.
  - exfalso. destruct H2 as [->|(-> & ->)], H4 as [H4|(H4 & ->)]; try discriminate; cbn in H4; injection H4; intros; apply H3; left; congruence.
  - exfalso. destruct H4 as [->|(-> & ->)], H2 as [H2|(H2 & ->)]; try discriminate; cbn in H2; injection H2; intros; apply H1; left; congruence.
  - destruct arg as [|z arg]. { destruct H2 as [H2|(H2 & _)]; discriminate. }
    assert (K1 : arg = a ++ 58 :: b \/ arg = a /\ b = []) by (destruct H2 as [H2|(H2 & ->)]; injection H2; auto).
    assert (K2 : arg = a' ++ 58 :: b' \/ arg = a' /\ b' = []) by (destruct H4 as [H4|(H4 & ->)]; injection H4; auto).
    assert (z = x) by (destruct H2 as [H2|(H2 & _)]; now injection H2). assert (z = y) by (destruct H4 as [H4|(H4 & _)]; now injection H4).
    assert (N1 : ~ In 58 a) by (intros K; apply H1; now right). assert (N2 : ~ In 58 a') by (intros K; apply H3; now right).
    destruct (IH arg a' N1 K1 N2 K2) as (-> & ->). split; congruence.
Qed.

(** ** Numbers *)
Lemma to_digit_spec base c x : 0 <= base <= 36 -> (to_digit base c = Some x <-> digit base c x).
Proof.
  intros Hb. unfold to_digit, digit. destruct ((48 <=? c) && (c <=? 57)) eqn:E1; [|destruct ((97 <=? c) && (c <=? 122)) eqn:E2; [|destruct ((65 <=? c) && (c <=? 90)) eqn:E3]];
  match goal with |- context[?a <? base] => destruct (a <? base) eqn:E end; split; intros H; try discriminate; try (injection H as <-; lia); try (f_equal; lia); try lia.
Qed.

Lemma digits_nonneg base ds n : 0 <= base -> digits base ds n -> 0 <= n.
Proof. intros Hb. induction 1 as [c x (H & _)|ds n c x _ IH (H & _)]; nia. Qed.
(** The value read so far, then further digits. *)
Lemma digits_app_inv base ds c n : digits base (ds ++ [c]) n -> (ds = [] /\ digit base c n) \/ exists m x, digits base ds m /\ digit base c x /\ n = m * base + x.
Proof.
  intros H. remember (ds ++ [c]) as l eqn:E. destruct H as [c' x Hx|ds' m c' x Hd Hx].
  - left. destruct ds as [|y ds]; cbn in E; [injection E as ->; auto|]. injection E as -> E. now destruct ds.
  - apply app_inj_tail in E. destruct E as (-> & ->). right. eauto.
Qed.

Inductive digits_from (base : Z) : Z -> list Z -> Z -> Prop :=
| df_nil acc : digits_from base acc [] acc
| df_cons acc c x t n : digit base c x -> digits_from base (acc * base + x) t n -> digits_from base acc (c :: t) n.
Lemma digits_from_snoc base acc t m c x : digits_from base acc t m -> digit base c x -> digits_from base acc (t ++ [c]) (m * base + x).
Proof. induction 1; intros Hx; cbn [app]; econstructor; eauto. constructor. Qed.
Lemma digits_from_digits base l n : digits base l n -> digits_from base 0 l n.
Proof.
  induction 1 as [c x Hx|ds n c x _ IH Hx].
  - econstructor; [exact Hx|]. replace x with (0 * base + x) at 2 by lia. constructor.
  - now apply digits_from_snoc.
Qed.
Lemma digits_of_from base t : forall acc pre n, digits base pre acc -> digits_from base acc t n -> digits base (pre ++ t) n.
Proof.
  induction t as [|c t IH]; intros acc pre n Hp H; inversion H; subst.
  - now rewrite app_nil_r.
  - change (c :: t) with ([c] ++ t). rewrite app_assoc. eapply IH; [|eassumption]. now constructor.
Qed.
Lemma digits_from_iff base l n : digits base l n <-> l <> [] /\ digits_from base 0 l n.
Proof.
  split.
  - intros H. split; [|now apply digits_from_digits]. destruct H; [discriminate|]. now destruct ds.
  - intros (Hl & H). destruct l as [|c t]; [tauto|]. inversion H; subst. change (c :: t) with ([c] ++ t).
    eapply digits_of_from; [|eassumption]. replace (0 * base + x) with x by lia. now constructor.
Qed.
Lemma digits_from_mono base acc t n : 1 <= base -> 0 <= acc -> digits_from base acc t n -> acc <= n.
Proof. intros Hb Ha H. induction H as [|acc c x t n (Hx & _) _ IH]; [lia|]. nia. Qed.

Lemma parse_digits_spec base t : 1 <= base <= 36 -> forall acc, 0 <= acc <= U64_MAX -> forall n, parse_digits base acc t = Some n <-> digits_from base acc t n /\ n <= U64_MAX.
Proof.
  intros Hb. induction t as [|c t IH]; intros acc Ha n; cbn [parse_digits].
  - split; [intros [= <-]; split; [constructor|lia]|]. intros (H & _). inversion H; subst; auto.
  - destruct (to_digit base c) as [x|] eqn:E.
    + apply to_digit_spec in E; [|lia]. pose proof E as (Hx & _). destruct (_ <=? U64_MAX) eqn:Eb.
      * rewrite IH by nia. split; intros (H1 & H2); split; auto.
        -- econstructor; eauto.
        -- inversion H1; subst. assert (x0 = x); [|subst; auto]. apply (to_digit_spec base) in E, H4; try lia. congruence.
      * split; [discriminate|]. intros (H & Hn). exfalso. inversion H; subst. assert (x0 = x).
        { apply (to_digit_spec base) in E, H3; try lia. congruence. }
        subst. apply digits_from_mono in H5; nia.
    + split; [discriminate|]. intros (H & _). inversion H; subst. apply (to_digit_spec base) in H3; [|lia]. congruence.
Qed.
Lemma plus_no_digit base x : ~ digit base 43 x.
Proof. unfold digit. lia. Qed.
Lemma from_str_radix_spec base l n : 1 <= base <= 36 -> (from_str_radix base l = Some n <-> signed_digits base l n /\ n <= U64_MAX).
Proof.
  intros Hb. unfold from_str_radix, signed_digits.
  assert (Z0 : 0 <= 0 <= U64_MAX) by (unfold U64_MAX; lia).
  destruct l as [|c t].
  - split; [discriminate|]. intros ([H|(ds & H & _)] & _); [|discriminate]. apply digits_from_iff in H. tauto.
  - destruct (c =? 43) eqn:Ec.
    + assert (c = 43) by lia. subst c.
      assert (N : ~ digits base (43 :: t) n). { intros H. apply digits_from_iff in H. destruct H as (_ & H). inversion H; subst. eapply plus_no_digit; eauto. }
      destruct t as [|c t].
      * split; [discriminate|]. intros ([H|(ds & [= <-] & H)] & _); [tauto|]. apply digits_from_iff in H. tauto.
      * rewrite parse_digits_spec by auto. split.
        -- intros (H & Hn). split; auto. right. exists (c :: t). split; auto. apply digits_from_iff. split; [discriminate|auto].
        -- intros ([H|(ds & [= <-] & H)] & Hn); [tauto|]. apply digits_from_iff in H. tauto.
    + rewrite parse_digits_spec by auto. rewrite digits_from_iff. split.
      * intros (H & Hn). split; auto. left. split; [discriminate|auto].
      * intros ([H|(ds & [= -> <-] & H)] & Hn); [tauto|lia].
Qed.
Lemma parse_number_spec l n : parse_number l = Some n <-> numeral l n.
Proof.
  assert (D : (exists ds, l = 48 :: 120 :: ds) \/ ((forall ds, l <> 48 :: 120 :: ds) /\ parse_number l = from_str_radix 10 l)).
  { unfold parse_number. destruct l as [|a [|b t]]; [right; split; [discriminate|auto]..|].
    destruct ((a =? 48) && (b =? 120)) eqn:E.
    - left. exists t. assert (a = 48) by lia. assert (b = 120) by lia. congruence.
    - right. split; [|auto]. intros ds [= -> ->]. discriminate. }
  unfold numeral. destruct D as [(ds & ->)|(Hn & ->)].
  - change (parse_number (48 :: 120 :: ds)) with (from_str_radix 16 ds). rewrite from_str_radix_spec by lia. split.
    + intros (H1 & H2). split; auto. left. eauto.
    + intros (H1 & [(ds' & [= <-] & H)|(K & _)]); [tauto|]. exfalso. now apply (K ds).
  - rewrite from_str_radix_spec by lia. split.
    + intros (H1 & H2). split; auto.
    + intros (H1 & [(ds' & -> & H)|(K & H)]); [|tauto]. exfalso. now apply (Hn ds').
Qed.
