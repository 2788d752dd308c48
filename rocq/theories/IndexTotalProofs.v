(** * Index operations on arbitrary contents: they end if references are acyclic, and what can panic. *)
From Verif Require Import Base Dev Types Record DataRuns Stream NonResident Resident Attribute File Structured AttrList Upcase Index
  Spec SpecIndex BaseProofs StructuredProofs NodeProofs IndexProofs.

(** An item is neither "out of fuel" nor, unless allowed, a panic. *)
Definition fine {A} (pan : bool) (r : res A) : Prop := match r with OutOfFuel => False | Panic => pan = true | _ => True end.
Definition fine_item {A} (pan : bool) (x : item A) : Prop := match x with Some r => fine pan r | None => True end.

Lemma er_to_entry_returns data a b p : 0 <= a <= b -> b <= zlen data -> bytes_ok data -> returns (er_to_entry (mkER a b p) data).
Proof.
  intros Ha Hb Hd. unfold er_to_entry, idx_range. cbn [er_start er_end er_position]. rewrite get_range_in by lia. cbn [rbind]. unfold ie_new.
  destruct (_ <? 16) eqn:E; [exact Logic.I|]. unfold ie_length, rd_u16. cbn [ie_slice]. rewrite rd_in by lia. cbn [rbind]. destruct (_ <? field _ _ _) eqn:E2; [exact Logic.I|].
  pose proof (field2_bound (slice data a b) 8 (bytes_ok_slice _ _ _ Hd)). unfold idx_range. rewrite get_range_in by lia. exact Logic.I.
Qed.

  (** The entry of a range. *)
  Lemma range_entry data o p : bytes_ok data -> 0 <= o -> entry_fits data o -> 13 <= entry_len data o ->
    (16 <= entry_len data o /\ er_to_entry (mkER o (o + entry_len data o) p) data = Ok (mkIE (entry_bytes data o) p)) \/
    (entry_len data o < 16 /\ exists x, er_to_entry (mkER o (o + entry_len data o) p) data = Err x).
  Proof.
    intros Hb Ho Hf Hl. destruct (Z_lt_le_dec (entry_len data o) 16) as [H|H]; [right|left; split; auto; now apply er_to_entry_ok].
    split; auto. destruct Hf as (F1 & F2). unfold er_to_entry, idx_range. cbn [er_start er_end er_position]. rewrite get_range_in by lia. cbn [rbind]. unfold ie_new.
    rewrite slice_len by lia. replace (_ <? 16) with true by lia. eauto.
  Qed.
  Lemma entry_subnode_cases data o p : bytes_ok data -> 0 <= o -> entry_fits data o -> 16 <= entry_len data o ->
    let x := ie_subnode_vcn (mkIE (entry_bytes data o) p) in
    x = None \/ (exists y, x = Some (Err y)) \/ exists vcn, x = Some (Ok vcn) /\ (0 <= vcn -> refers data o vcn).
  Proof.
    intros Hb Ho Hf Hl. cbn zeta. destruct (entry_has_subnode data o) eqn:E; [right|left; now apply (entry_subnode_none data Hb o p)].
    unfold ie_subnode_vcn. rewrite ie_has_subnode_bytes by auto. replace (entry_len data o <? 13) with false by lia. rewrite E.
    rewrite ie_length_bytes by auto. replace (entry_len data o <? 10) with false by lia. replace (entry_len data o <? 8) with false by lia. cbn [ie_slice].
    pose proof (entry_bytes_len data o Ho Hf Hl) as Hz.
    destruct (Z_lt_le_dec (entry_len data o) 24) as [H24|H24].
    - left. unfold get_range. match goal with |- context [if ?b then _ else _] => replace b with false by lia end. eauto.
    - right. replace (Z.max (entry_len data o - 8) 16) with (entry_len data o - 8) by lia. rewrite get_range_in by lia. eexists. split; [reflexivity|].
      intros Hv. split; auto. split; auto. fold (field 8 (entry_bytes data o) (entry_len data o - 8)) in *. rewrite (entry_bytes_field data o Ho) in * by lia.
      replace (o + (entry_len data o - 8)) with (o + entry_len data o - 8) in * by lia. pose proof (field8_bound data (o + entry_len data o - 8) Hb).
      unfold to_i64 in *. destruct (_ <=? I64_MAX) eqn:E2; auto. unfold I64_MAX, U64_MAX, TWO64 in *. lia.
  Qed.

Section Total.
  Context (pan : bool) (sub : Z -> M ranges) (good : dev -> Prop) (child : Z -> list Z -> Prop) (B : nat).
  Context (Hchild : forall vcn data, child vcn data -> bytes_ok data /\ 24 + field 4 data 28 <= zlen data /\ (Z.to_nat (zlen data) < B)%nat)
    (Hsub : forall vcn d, good d -> exists d' r, sub vcn d = (d', r) /\ good d' /\ fine pan r /\
       forall g, r = Ok g -> 0 <= vcn /\ exists data p, child vcn data /\ g = mkRanges data (24 + field 4 data 24) (24 + field 4 data 28) p).
  Context (rank : Z -> nat) (Hrank : forall vcn data offs e o vcn' data', child vcn data ->
    node_walk data (24 + field 4 data 28) (24 + field 4 data 24) offs e -> In o offs -> refers data o vcn' -> child vcn' data' -> (rank vcn' < rank vcn)%nat).
  Context (Hshort : pan = false -> forall vcn data' offs e, child vcn data' ->
    node_walk data' (24 + field 4 data' 28) (24 + field 4 data' 24) offs e -> e <> NodeTooShort).

  (** The number of loop iterations that a record of rank below [r] can cause. *)
  Fixpoint cost (r : nat) : nat := match r with O => 0 | S k => 1 + B * (1 + cost k) end%nat.
  Lemma cost_mono r s : (r <= s)%nat -> (cost r <= cost s)%nat.
  Proof.
    revert s. induction r as [|r IH]; intros s H; [cbn; lia|]. destruct s as [|s]; [lia|]. cbn [cost]. specialize (IH s ltac:(lia)).
    apply le_n_S. apply Nat.mul_le_mono_l. lia.
  Qed.

  (** An iterator that causes at most [n] loop iterations. *)
  Definition node (g : ranges) (n : nat) : Prop := exists r l e, bytes_ok (rg_data g) /\ 0 <= rg_start g /\ rg_end g <= zlen (rg_data g) /\
    node_walk (rg_data g) (rg_end g) (rg_start g) l e /\ (pan = false -> e <> NodeTooShort) /\
    (forall o vcn data', In o l -> refers (rg_data g) o vcn -> child vcn data' -> (rank vcn < r)%nat) /\ n = (1 + length l * (1 + cost r))%nat.

  Lemma walk_length data stop o l e : bytes_ok data -> node_walk data stop o l e -> 0 <= o -> stop <= zlen data -> (length l <= Z.to_nat (zlen data) + 1)%nat.
  Proof. intros Hb W Ho Hs. pose proof (node_walk_length data stop o l e Hb W Ho) as H. unfold zlen in *. lia. Qed.

  Lemma child_node vcn data p : child vcn data -> exists n, node (mkRanges data (24 + field 4 data 24) (24 + field 4 data 28) p) n /\ (n <= cost (S (rank vcn)))%nat.
  Proof.
    intros Hc. destruct (Hchild _ _ Hc) as (Hb & Hs & HB). pose proof (field4_bound data 24 Hb).
    destruct (node_walk_exists data (24 + field 4 data 28) Hb Hs (24 + field 4 data 24) ltac:(lia)) as (l & e & W).
    exists (1 + length l * (1 + cost (rank vcn)))%nat. split.
    - exists (rank vcn), l, e. cbn [rg_data rg_start rg_end]. split; auto. split; [lia|]. split; auto. split; auto. split; [intros Hp; eapply Hshort; eauto|].
      split; auto. intros o vcn' data' Ho Hr Hc'. eapply Hrank; eauto.
    - cbn [cost]. pose proof (walk_length data _ _ l e Hb W ltac:(lia) Hs). apply le_n_S. apply Nat.mul_le_mono_r. lia.
  Qed.

  (** One call of [ranges_next]. *)
  Lemma node_step g n : node g n -> exists g' x, ranges_next g = (g', x) /\ rg_data g' = rg_data g /\
    ((x = None /\ g' = g) \/ (exists y, x = Some (Err y) /\ g' = g) \/ (x = Some Panic /\ g' = g /\ pan = true) \/
     (exists o p m r, x = Some (Ok (mkER o (o + entry_len (rg_data g) o) p)) /\ node g' m /\ (m + 1 + cost r <= n)%nat /\
        0 <= o /\ entry_fits (rg_data g) o /\ 13 <= entry_len (rg_data g) o /\
        forall vcn data', refers (rg_data g) o vcn -> child vcn data' -> (rank vcn < r)%nat)).
  Proof.
    destruct g as [data o stop p]. intros (r & l & e & Hb & Ho & Hs & W & Hp & Hr & Hn). cbn [rg_data rg_start rg_end] in *.
    destruct (ranges_next_spec data Hb stop Hs o p Ho) as (K1 & K2 & K3 & K4). inversion W; subst.
    - rewrite K1 by auto. do 2 eexists. split; [reflexivity|]. auto.
    - destruct K2 as (x & E); auto. rewrite E. do 2 eexists. split; [reflexivity|]. split; auto. right; left. eauto.
    - rewrite K3 by auto. do 2 eexists. split; [reflexivity|]. split; auto. right; right; left. split; auto. split; auto. destruct pan; auto. now destruct (Hp eq_refl).
    - rewrite K4 by auto. rewrite H2. do 2 eexists. split; [reflexivity|]. split; auto. right; right; right.
      exists o, p, 1%nat, r. split; auto. split; [|cbn [length]; split; [lia|]].
      + exists 0%nat, [], NodeDone. cbn [rg_data rg_start rg_end length]. pose proof (zlen_nonneg data). split; auto. split; auto. split; auto. split; [now apply nw_end|].
        split; [discriminate|]. split; [intros ? ? ? []|lia].
      + split; auto. split; auto. split; auto. intros vcn data' Hf Hc. apply (Hr o vcn data'); auto. now left.
    - rewrite K4 by auto. rewrite H2. do 2 eexists. split; [reflexivity|]. split; auto. right; right; right.
      exists o, p, (1 + length l0 * (1 + cost r))%nat, r. split; auto. split; [|cbn [length]; split; [lia|]].
      + exists r, l0, e. cbn [rg_data rg_start rg_end]. split; auto. split; [lia|]. split; auto. split; auto. split; auto. split; auto.
        intros o' vcn data' Hi. apply Hr. now right.
      + split; auto. split; auto. split; auto. intros vcn data' Hf Hc. apply (Hr o vcn data'); auto. now left.
  Qed.

  Definition follow (o : option erange) (h : ranges) : Prop := match o with None => True | Some r => 0 <= er_start r <= er_end r /\ er_end r <= zlen (rg_data h) /\ bytes_ok (rg_data h) end.
  Inductive stack : list ranges -> list (option erange) -> nat -> Prop :=
  | st_nil : stack [] [] 0
  | st_one g n : node g n -> stack [g] [] n
  | st_push g n h rest o fs m : node g n -> stack (h :: rest) fs m -> follow o h -> stack (g :: h :: rest) (o :: fs) (n + m).

  Lemma stack_top g below fs n : stack (g :: below) fs n -> exists a b, n = (a + b)%nat /\ node g a /\
    (forall g' a', rg_data g' = rg_data g -> node g' a' -> stack (g' :: below) fs (a' + b)) /\
    (forall s m o, node s m -> follow o g -> stack (s :: g :: below) (o :: fs) (m + n)).
  Proof.
    intros H. inversion H; subst.
    - exists n, 0%nat. split; [lia|]. split; auto. split; [intros g' a' Ed Hn; rewrite Nat.add_0_r; now constructor|]. intros. now constructor.
    - exists n0, m. split; auto. split; auto. split; [intros g' a' Ed Hn; constructor; auto|]. intros. constructor; auto.
  Qed.

  Lemma loop_total : forall f st d n, stack (es_iters st) (es_following st) n -> good d -> (n < f)%nat ->
    exists d' st' x m, entries_loop sub f st d = (d', (st', x)) /\ good d' /\ stack (es_iters st') (es_following st') m /\ (m <= n)%nat /\ fine_item pan x.
  Proof.
    induction f as [|f IH]; intros [its fs] d n Hst Hg Hn; [lia|]. cbn [es_iters es_following] in *. cbn [entries_loop es_iters es_following].
    destruct its as [|g below].
    { exists d, (mkIEs [] fs), None, n. cbn. auto. }
    destruct (stack_top g below fs n Hst) as (a & b & Hab & Hga & Hrep & Hpush).
    destruct (node_step g a Hga) as (g' & x & En & Ed & Hx). rewrite En.
    destruct Hx as [(-> & ->)|[(y & -> & ->)|[(-> & -> & Hp)|(o & p & m & r & -> & Hm & Hc & Ho & Hf & Hl & Hr)]]].
    - inversion Hst; subst.
      + exists d, (mkIEs [] []), None, 0%nat. split; [reflexivity|]. split; auto. cbn. split; [constructor|split; [lia|auto]].
      + destruct o as [[ra rb rp]|].
        * match goal with K : stack (h :: rest) _ _, F : follow _ h |- _ => destruct F as (F1 & F2 & F3); exists d, (mkIEs (h :: rest) fs0); eexists; exists m; split; [reflexivity|];
            split; [auto|]; split; [exact K|]; split; [lia|] end.
          cbn [es_iters er_start er_end] in *. pose proof (er_to_entry_returns (rg_data h) ra rb rp F1 F2 F3) as K. cbn. destruct (er_to_entry _ _); cbn in *; tauto.
        * destruct (IH (mkIEs (h :: rest) fs0) d m) as (d' & st' & x & k & E & G1 & G2 & G3 & G4); auto; [|exists d', st', x, k; split; auto; split; auto; split; auto; split; [lia|auto]].
          enough (1 <= n0)%nat by lia. destruct Hga as (? & ? & ? & _ & _ & _ & _ & _ & _ & ->). 
          match goal with K : node g n0 |- _ => destruct K as (? & ? & ? & _ & _ & _ & _ & _ & _ & ->) end. lia.
    - exists d, (mkIEs (g :: below) fs), (Some (Err y)), n. cbn. auto.
    - exists d, (mkIEs (g :: below) fs), (Some Panic), n. cbn. auto.
    - assert (Hb : bytes_ok (rg_data g)) by (destruct Hga as (? & ? & ? & ? & _); auto). rewrite Ed. specialize (Hrep g' m Ed Hm).
      destruct (range_entry (rg_data g) o p Hb Ho Hf Hl) as [(H16 & Ee)|(_ & y & Ee)]; rewrite Ee; cbn [rbind].
      2: { exists d, (mkIEs (g' :: below) fs), (Some (Err y)), (m + b)%nat. cbn. split; auto. split; auto. split; auto. split; [lia|auto]. }
      rewrite (entry_last_ok (rg_data g) Hb o p Ho Hf H16). cbn [rbind].
      destruct (entry_subnode_cases (rg_data g) o p Hb Ho Hf H16) as [E|[(y & E)|(vcn & E & Hv)]]; rewrite E.
      + destruct (entry_is_last _ _).
        * destruct (IH (mkIEs (g' :: below) fs) d (m + b)%nat) as (d' & st' & x & k & E' & G1 & G2 & G3 & G4); auto; [lia|].
          exists d', st', x, k. split; auto. split; auto. split; auto. split; [lia|auto].
        * exists d, (mkIEs (g' :: below) fs). unfold entries_yield. cbn [es_iters]. rewrite Ed, Ee. eexists. exists (m + b)%nat. split; [reflexivity|].
          split; auto. split; auto. split; [lia|]. cbn. auto.
      + exists d, (mkIEs (g' :: below) fs), (Some (Err y)), (m + b)%nat. cbn. split; auto. split; auto. split; auto. split; [lia|auto].
      + destruct (Hsub vcn d Hg) as (d1 & rs & Es & Hg1 & Hfi & Hok). rewrite Es. destruct rs as [sg|y| |].
        * destruct (Hok sg eq_refl) as (Hv0 & data' & q & Hch & ->). destruct (child_node vcn data' q Hch) as (k & Hk & Hkc).
          pose proof (Hr vcn data' (Hv Hv0) Hch) as Hlt. pose proof (cost_mono (S (rank vcn)) r Hlt) as Hcm.
          destruct (stack_top g' below fs (m + b)%nat Hrep) as (_ & _ & _ & _ & _ & Hpush').
          specialize (Hpush' (mkRanges data' (24 + field 4 data' 24) (24 + field 4 data' 28) q) k
            (if entry_is_last (rg_data g) o then None else Some (mkER o (o + entry_len (rg_data g) o) p)) Hk).
          destruct (IH (mkIEs (mkRanges data' (24 + field 4 data' 24) (24 + field 4 data' 28) q :: g' :: below)
            ((if entry_is_last (rg_data g) o then None else Some (mkER o (o + entry_len (rg_data g) o) p)) :: fs)) d1 (k + (m + b))%nat)
            as (d' & st' & x & j & E' & G1 & G2 & G3 & G4); auto; [|lia|].
          { cbn [es_iters es_following]. apply Hpush'. destruct (entry_is_last _ _); cbn; auto. rewrite Ed. destruct Hf as (F1 & F2). split; [lia|auto]. }
          exists d', st', x, j. split; auto. split; auto. split; auto. split; [lia|auto].
        * exists d1, (mkIEs (g' :: below) fs), (Some (Err y)), (m + b)%nat. cbn. split; auto. split; auto. split; auto. split; [lia|auto].
        * exists d1, (mkIEs (g' :: below) fs), (Some Panic), (m + b)%nat. cbn. split; auto. split; auto. split; auto. split; [lia|auto].
        * destruct Hfi.
  Qed.

  Lemma iterate_total f : forall k st d n, stack (es_iters st) (es_following st) n -> good d -> (n < f)%nat ->
    Forall (fine_item pan) (iterate (with_dev (entries_loop sub f)) k (st, d)).
  Proof.
    induction k as [|k IH]; intros st d n Hst Hg Hn; [constructor|]. cbn [iterate]. unfold with_dev at 1. cbn [fst snd].
    destruct (loop_total f st d n Hst Hg Hn) as (d' & st' & x & m & E & G1 & G2 & G3 & G4). rewrite E. constructor; auto. eapply IH; eauto. lia.
  Qed.

  (** Lookup. *)
  Context {K : Type} (kp : list Z -> position -> res K) (cmp : K -> res comparison) (Hkp : forall s p, fine pan (kp s p)) (Hcmp : forall k, fine pan (cmp k)).
  Lemma find_total : forall f g d n, node g n -> good d -> (n < f)%nat ->
    exists d' x, find_loop kp cmp sub f g d = (d', x) /\ good d' /\ fine_item pan x.
  Proof.
    induction f as [|f IH]; intros g d n Hga Hg Hn; [lia|]. cbn [find_loop].
    destruct (node_step g n Hga) as (g' & x & En & Ed & Hx). rewrite En.
    destruct Hx as [(-> & ->)|[(y & -> & ->)|[(-> & -> & Hp)|(o & p & m & r & -> & Hm & Hc & Ho & Hf & Hl & Hr)]]]; [do 2 eexists; split; [reflexivity|]; cbn; auto ..|].
    assert (Hb : bytes_ok (rg_data g)) by (destruct Hga as (? & ? & ? & ? & _); auto). rewrite Ed.
    destruct (range_entry (rg_data g) o p Hb Ho Hf Hl) as [(H16 & Ee)|(_ & y & Ee)]; rewrite Ee; [|do 2 eexists; split; [reflexivity|]; cbn; auto].
    assert (Hkey : fine pan (match ie_key kp (mkIE (entry_bytes (rg_data g) o) p) with Some x => let? key := x in cmp key | None => Ok Lt end)).
    { unfold ie_key, ie_key_length, rd_u16. cbn [ie_slice ie_position]. pose proof (entry_bytes_len (rg_data g) o Ho Hf H16) as Hz.
      rewrite rd_in by lia. destruct (_ =? 0); [exact Logic.I|]. rewrite (entry_last_ok (rg_data g) Hb o p Ho Hf H16). destruct (entry_is_last _ _); [exact Logic.I|].
      destruct (get_range _ _ _) as [s|]; [|exact Logic.I]. pose proof (Hkp s (pos_add p 16)) as Hk. destruct (kp s _) as [key|y| |]; cbn [rbind]; auto. }
    destruct (match ie_key kp _ with Some _ => _ | None => _ end) as [[]|y| |]; try (do 2 eexists; split; [reflexivity|]; cbn; auto; fail).
    - destruct (entry_subnode_cases (rg_data g) o p Hb Ho Hf H16) as [E|[(y & E)|(vcn & E & Hv)]]; rewrite E; [do 2 eexists; split; [reflexivity|]; cbn; auto ..|].
      destruct (Hsub vcn d Hg) as (d1 & rs & Es & Hg1 & Hfi & Hok). rewrite Es. destruct rs as [sg|y| |]; try (do 2 eexists; split; [reflexivity|]; cbn; auto; fail).
      destruct (Hok sg eq_refl) as (Hv0 & data' & q & Hch & ->). destruct (child_node vcn data' q Hch) as (k & Hk & Hkc).
      pose proof (Hr vcn data' (Hv Hv0) Hch) as Hlt. pose proof (cost_mono (S (rank vcn)) r Hlt) as Hcm. eapply IH; eauto. lia.
    - eapply IH; eauto. lia.
  Qed.
End Total.

(** Finite lists of numbers have a bound. *)
Lemma root_rank (child : Z -> list Z -> Prop) (rank : Z -> nat) data l : exists r, forall o vcn data', In o l -> refers data o vcn -> child vcn data' -> (rank vcn < r)%nat.
Proof.
  induction l as [|x l (r & IH)]; [exists 0%nat; intros ? ? ? []|].
  exists (S (Nat.max r (rank (field 8 data (x + entry_len data x - 8))))). intros o vcn data' [<-|Hi] Hr Hc.
  - destruct Hr as (_ & _ & ->). lia.
  - specialize (IH o vcn data' Hi Hr Hc). lia.
Qed.

(** Soundness of lookups, on anything. *)
Lemma find_sound {K} (kp : list Z -> position -> res K) cmp sub : forall f g d d' e, find_loop kp cmp sub f g d = (d', Some (Ok e)) ->
  exists k, ie_key kp e = Some (Ok k) /\ cmp k = Ok Eq.
Proof.
  induction f as [|f IH]; intros g d d' e; cbn [find_loop]; [discriminate|].
  destruct (ranges_next g) as [g' [[r|x| |]|]]; try discriminate. destruct (er_to_entry r (rg_data g')) as [e0|x| |] eqn:Ee; try discriminate.
  destruct (ie_key kp e0) as [[k|x| |]|] eqn:Ek; cbn [rbind]; try discriminate.
  - destruct (cmp k) as [[]|x| |] eqn:Ec; try discriminate.
    + intros [= <- <-]. eauto.
    + destruct (ie_subnode_vcn e0) as [[vcn|x| |]|]; try discriminate. destruct (sub vcn d) as [d1 [sg|x| |]]; try discriminate. apply IH.
    + apply IH.
  - destruct (ie_subnode_vcn e0) as [[vcn|x| |]|]; try discriminate. destruct (sub vcn d) as [d1 [sg|x| |]]; try discriminate. apply IH.
Qed.
