(** * Traversal of and lookup in index trees. *)
From Verif Require Import Base Dev Types Record DataRuns Stream NonResident Resident Attribute File Structured AttrList Upcase Index
  Spec SpecIndex BaseProofs StructuredProofs NodeProofs.

Scheme listing_ind2 := Induction for listing Sort Prop with sublisting_ind2 := Induction for sublisting Sort Prop.
Combined Scheme listing_mutind from listing_ind2, sublisting_ind2.

(** ** Entries *)
Section Entry.
  Context (data : list Z) (Hb : bytes_ok data) (o : Z) (p : position) (Ho : 0 <= o) (Hf : entry_fits data o) (Hl : 16 <= entry_len data o).
  Let e := mkIE (entry_bytes data o) p.

  Lemma entry_bytes_len : zlen (entry_bytes data o) = entry_len data o.
  Proof. destruct Hf. unfold entry_bytes. rewrite slice_len; lia. Qed.
  Lemma entry_bytes_field n k : 0 <= k -> k + n <= entry_len data o -> field n (entry_bytes data o) k = field n data (o + k).
  Proof. intros. unfold entry_bytes. rewrite field_slice; auto; lia. Qed.
  Lemma er_to_entry_ok : er_to_entry (mkER o (o + entry_len data o) p) data = Ok e.
  Proof.
    destruct Hf as (F1 & F2). unfold er_to_entry, idx_range. cbn [er_start er_end er_position]. rewrite get_range_in by lia. cbn [rbind].
    apply (ie_new_exact data o p Ho Hf Hl).
  Qed.
  Lemma entry_last_ok : ie_is_last e = Ok (entry_is_last data o).
  Proof. unfold e. rewrite ie_is_last_bytes by auto. now replace (entry_len data o <? 13) with false by lia. Qed.
  Lemma entry_subnode_none : entry_has_subnode data o = false -> ie_subnode_vcn e = None.
  Proof. intros H. unfold ie_subnode_vcn, e. rewrite ie_has_subnode_bytes by auto. replace (entry_len data o <? 13) with false by lia. now rewrite H. Qed.
  Lemma entry_subnode_vcn vcn : entry_has_subnode data o = true -> 24 <= entry_len data o ->
    vcn = field 8 data (o + entry_len data o - 8) -> vcn <= I64_MAX -> ie_subnode_vcn e = Some (Ok vcn).
  Proof.
    intros H H24 -> Hi. unfold ie_subnode_vcn, e. rewrite ie_has_subnode_bytes by auto. replace (entry_len data o <? 13) with false by lia.
    rewrite H. rewrite ie_length_bytes by auto. replace (entry_len data o <? 10) with false by lia. replace (entry_len data o <? 8) with false by lia.
    replace (Z.max (entry_len data o - 8) 16) with (entry_len data o - 8) by lia. cbn [ie_slice].
    rewrite get_range_in by (rewrite ?entry_bytes_len; lia). fold (field 8 (entry_bytes data o) (entry_len data o - 8)).
    rewrite entry_bytes_field by lia. replace (o + (entry_len data o - 8)) with (o + entry_len data o - 8) by lia.
    unfold to_i64. destruct (_ <=? I64_MAX) eqn:E; [reflexivity|lia].
  Qed.
  Lemma entry_key {K} (kp : list Z -> position -> res K) : entry_is_last data o = false -> has_key (entry_bytes data o) ->
    ie_key kp e = Some (kp (key_of (entry_bytes data o)) (pos_add p 16)).
  Proof.
    intros Hlast (Hk & Hk2). rewrite entry_bytes_len in Hk2. unfold ie_key, ie_key_length, e, rd_u16. cbn [ie_slice ie_position].
    rewrite rd_in by (rewrite ?entry_bytes_len; lia). replace (field 2 (entry_bytes data o) 10 =? 0) with false by lia.
    fold e. rewrite entry_last_ok, Hlast. rewrite get_range_in by (rewrite ?entry_bytes_len; lia). reflexivity.
  Qed.
  Lemma entry_key_last {K} (kp : list Z -> position -> res K) : entry_is_last data o = true -> ie_key kp e = None.
  Proof.
    intros Hlast. unfold ie_key, ie_key_length, e, rd_u16. cbn [ie_slice ie_position].
    rewrite rd_in by (rewrite ?entry_bytes_len; lia). destruct (_ =? 0); auto. fold e. now rewrite entry_last_ok, Hlast.
  Qed.
End Entry.

Section Tree.
  Context (sub : Z -> M ranges) (good : dev -> Prop) (child : Z -> list Z -> Prop).
  Context (Hchild : forall vcn data, child vcn data -> bytes_ok data /\ 24 + field 4 data 28 <= zlen data)
    (Hsub : forall vcn data d, child vcn data -> good d -> exists d' p,
       sub vcn d = (d', Ok (mkRanges data (24 + field 4 data 24) (24 + field 4 data 28) p)) /\ good d').

  (** ** Iteration: loop steps and the entries they return. *)
  Inductive runs : nat -> ientries -> dev -> list ientry -> ientries -> dev -> Prop :=
  | r_nil st d : runs 0 st d [] st d
  | r_silent k st d st1 d1 es st' d' : (forall f, entries_loop sub (S f) st d = entries_loop sub f st1 d1) ->
      runs k st1 d1 es st' d' -> runs (S k) st d es st' d'
  | r_out k st d st1 d1 e es st' d' : (forall f, entries_loop sub (S f) st d = (d1, (st1, Some (Ok e)))) ->
      runs k st1 d1 es st' d' -> runs (S k) st d (e :: es) st' d'.

  Lemma runs_trans k1 k2 st d es1 st1 d1 es2 st2 d2 : runs k1 st d es1 st1 d1 -> runs k2 st1 d1 es2 st2 d2 -> runs (k1 + k2) st d (es1 ++ es2) st2 d2.
  Proof. induction 1; intros H2; cbn; auto; [eapply r_silent; eauto|eapply r_out; eauto]. Qed.

  Lemma runs_silent k st d st' d' : runs k st d [] st' d' -> forall f, (k <= f)%nat -> entries_loop sub f st d = entries_loop sub (f - k) st' d'.
  Proof.
    intros H. remember [] as es eqn:He. induction H; intros f Hf; try discriminate.
    - now rewrite Nat.sub_0_r.
    - destruct f as [|f]; [lia|]. rewrite H. rewrite IHruns by (auto; lia). reflexivity.
  Qed.
  Lemma runs_first k st d e es st' d' : runs k st d (e :: es) st' d' -> exists k2 st1 d1, (k2 < k)%nat /\ runs k2 st1 d1 es st' d' /\
    forall f, (k <= f)%nat -> entries_loop sub f st d = (d1, (st1, Some (Ok e))).
  Proof.
    intros H. remember (e :: es) as l eqn:He. revert e es He. induction H; intros e0 es0 He; try discriminate.
    - destruct (IHruns _ _ He) as (k2 & st2 & d2 & Hk & Hr & E). exists k2, st2, d2. split; [lia|]. split; auto.
      intros f Hf. destruct f as [|f]; [lia|]. rewrite H. apply E. lia.
    - injection He as <- <-. exists k, st1, d1. split; [lia|]. split; auto. intros f Hf. destruct f as [|f]; [lia|]. apply H.
  Qed.

  Lemma listing_runs :
    (forall data stop o l, listing child data stop o l -> bytes_ok data -> stop <= zlen data -> 0 <= o ->
       forall below fs d p, good d -> exists es k d' g', map ie_slice es = l /\ good d' /\ rg_end g' <= rg_start g' /\
         runs k (mkIEs (mkRanges data o stop p :: below) fs) d es (mkIEs (g' :: below) fs) d') /\
    (forall data o l, sublisting child data o l -> 
       (entry_has_subnode data o = false /\ l = []) \/
       (exists vcn data', entry_has_subnode data o = true /\ 24 <= entry_len data o /\ vcn = field 8 data (o + entry_len data o - 8) /\ vcn <= I64_MAX /\
          child vcn data' /\ forall below fs d p, good d -> exists es k d' g', map ie_slice es = l /\ good d' /\ rg_end g' <= rg_start g' /\
         runs k (mkIEs (mkRanges data' (24 + field 4 data' 24) (24 + field 4 data' 28) p :: below) fs) d es (mkIEs (g' :: below) fs) d')).
  Proof.
    apply listing_mutind.
    - intros data stop o Ho Hb Hs Ho0 below fs d p Hg. exists [], 0%nat, d, (mkRanges data o stop p). split; auto. split; auto. split; [exact Ho|constructor].
    - intros data stop o l Hlt Hf Hl Hlast _ IH Hb Hs Ho below fs d p Hg.
      destruct (ranges_next_spec data Hb stop Hs o p Ho) as (_ & _ & _ & Hn). specialize (Hn Hlt Hf ltac:(lia)). rewrite Hlast in Hn.
      set (g' := mkRanges data (zlen data) stop p) in *.
      assert (Hex : rg_end g' <= rg_start g') by (cbn; lia).
      destruct IH as [(Hns & ->)|(vcn & data' & Hhs & H24 & Hvcn & Hi & Hc & IH)].
      + exists [], 1%nat, d, g'. split; auto. split; auto. split; auto. eapply r_silent; [|constructor]. intros f. cbn [entries_loop es_iters]. rewrite Hn.
        change (rg_data g') with data. rewrite (er_to_entry_ok data o p Ho Hf Hl). cbn [rbind]. rewrite (entry_last_ok data Hb o p Ho Hf Hl), Hlast. cbn [rbind].
        rewrite (entry_subnode_none data Hb o p Ho Hf Hl Hns). reflexivity.
      + destruct (Hsub vcn data' d Hc Hg) as (d1 & p1 & Es & Hg1).
        destruct (IH (g' :: below) (None :: fs) d1 p1 Hg1) as (es & k & d2 & g2 & Hes & Hg2 & Hex2 & Hr).
        exists es, (1 + (k + 1))%nat, d2, g'. split; auto. split; auto. split; auto. cbn [Nat.add]. eapply r_silent.
        * intros f. cbn [entries_loop es_iters es_following]. rewrite Hn. change (rg_data g') with data.
          rewrite (er_to_entry_ok data o p Ho Hf Hl). cbn [rbind]. rewrite (entry_last_ok data Hb o p Ho Hf Hl), Hlast. cbn [rbind].
          rewrite (entry_subnode_vcn data Hb o p Ho Hf Hl vcn Hhs H24 Hvcn Hi). rewrite Es. reflexivity.
        * rewrite <- (app_nil_r es). eapply runs_trans; [exact Hr|]. eapply r_silent; [|constructor]. intros f. cbn [entries_loop es_iters es_following].
          unfold ranges_next. replace (rg_end g2 <=? rg_start g2) with true by lia. reflexivity.
    - intros data stop o l1 l2 Hlt Hf Hl Hlast _ IH1 _ IH2 Hb Hs Ho below fs d p Hg.
      destruct (ranges_next_spec data Hb stop Hs o p Ho) as (_ & _ & _ & Hn). specialize (Hn Hlt Hf ltac:(lia)). rewrite Hlast in Hn.
      set (g' := mkRanges data (o + entry_len data o) stop (pos_add p (entry_len data o))) in *.
      assert (Hfirst : exists es k d', map ie_slice es = l1 ++ [entry_bytes data o] /\ good d' /\
        runs k (mkIEs (mkRanges data o stop p :: below) fs) d es (mkIEs (g' :: below) fs) d').
      { destruct IH1 as [(Hns & ->)|(vcn & data' & Hhs & H24 & Hvcn & Hi & Hc & IH)].
        - exists [mkIE (entry_bytes data o) p], 1%nat, d. split; auto. split; auto. eapply r_out; [|constructor]. intros f. cbn [entries_loop es_iters].
          rewrite Hn. change (rg_data g') with data. rewrite (er_to_entry_ok data o p Ho Hf Hl). cbn [rbind]. rewrite (entry_last_ok data Hb o p Ho Hf Hl), Hlast. cbn [rbind].
          rewrite (entry_subnode_none data Hb o p Ho Hf Hl Hns). unfold entries_yield. cbn [es_iters es_following].
          change (rg_data g') with data. now rewrite (er_to_entry_ok data o p Ho Hf Hl).
        - destruct (Hsub vcn data' d Hc Hg) as (d1 & p1 & Es & Hg1).
          destruct (IH (g' :: below) (Some (mkER o (o + entry_len data o) p) :: fs) d1 p1 Hg1) as (es & k & d2 & g2 & Hes & Hg2 & Hex2 & Hr).
          exists (es ++ [mkIE (entry_bytes data o) p]), (1 + (k + 1))%nat, d2. split; [rewrite map_app, Hes; reflexivity|]. split; auto. cbn [Nat.add]. eapply r_silent.
          + intros f. cbn [entries_loop es_iters es_following]. rewrite Hn. change (rg_data g') with data.
            rewrite (er_to_entry_ok data o p Ho Hf Hl). cbn [rbind]. rewrite (entry_last_ok data Hb o p Ho Hf Hl), Hlast. cbn [rbind].
            rewrite (entry_subnode_vcn data Hb o p Ho Hf Hl vcn Hhs H24 Hvcn Hi). rewrite Es. reflexivity.
          + eapply runs_trans; [exact Hr|]. eapply r_out; [|constructor]. intros f. cbn [entries_loop es_iters es_following].
            unfold ranges_next. replace (rg_end g2 <=? rg_start g2) with true by lia. unfold entries_yield. cbn [es_iters es_following].
            change (rg_data g') with data. now rewrite (er_to_entry_ok data o p Ho Hf Hl). }
      destruct Hfirst as (es1 & k1 & d1 & He1 & Hg1 & Hr1).
      destruct (IH2 Hb Hs ltac:(lia) below fs d1 (pos_add p (entry_len data o)) Hg1) as (es2 & k2 & d2 & g2 & He2 & Hg2 & Hex2 & Hr2).
      exists (es1 ++ es2), (k1 + k2)%nat, d2, g2. split; [rewrite map_app, He1, He2, <- app_assoc; reflexivity|]. split; auto. split; auto.
      eapply runs_trans; eauto.
    - intros data o H. left. auto.
    - intros data o vcn data' l Hhs H24 Hvcn Hi Hc _ IH. right. exists vcn, data'. repeat (split; [assumption|]).
      destruct (Hchild _ _ Hc) as (Hb & Hs). intros. apply IH; auto. pose proof (field4_bound data' 24 Hb). lia.
  Qed.

  Lemma traverse_runs f : forall es k st d g d', runs k st d es (mkIEs [g] []) d' -> rg_end g <= rg_start g -> (k < f)%nat ->
    forall n, iterate (with_dev (entries_loop sub f)) (length es + n) (st, d) = map (fun e => Some (Ok e)) es ++ repeat None n.
  Proof.
    induction es as [|e es IH]; intros k st d g d' Hr Hex Hk n.
    - cbn [length Nat.add map app]. destruct n as [|n]; [reflexivity|]. cbn [iterate repeat]. unfold with_dev at 1. cbn [fst snd].
      rewrite (runs_silent _ _ _ _ _ Hr f ltac:(lia)). destruct (f - k)%nat as [|j] eqn:Ej; [lia|]. cbn [entries_loop es_iters es_following].
      unfold ranges_next at 1. replace (rg_end g <=? rg_start g) with true by lia. f_equal. apply iterate_fixed.
      unfold with_dev. cbn [fst snd]. destruct f as [|f]; [lia|]. reflexivity.
    - destruct (runs_first _ _ _ _ _ _ _ Hr) as (k2 & st1 & d1 & Hk2 & Hr2 & E). cbn [length Nat.add iterate map app]. unfold with_dev at 1. cbn [fst snd].
      rewrite (E f ltac:(lia)). f_equal. eapply IH; eauto. lia.
  Qed.

  (** The whole traversal. *)
  Lemma traverse data stop o l p d : listing child data stop o l -> bytes_ok data -> stop <= zlen data -> 0 <= o -> good d ->
    exists es N, map ie_slice es = l /\ forall f n, (N <= f)%nat ->
      iterate (with_dev (entries_loop sub f)) (length es + n) (mkIEs [mkRanges data o stop p] [], d) = map (fun e => Some (Ok e)) es ++ repeat None n.
  Proof.
    intros H Hb Hs Ho Hg. destruct (proj1 listing_runs data stop o l H Hb Hs Ho [] [] d p Hg) as (es & k & d' & g' & Hes & Hg' & Hex & Hr).
    exists es, (S k). split; auto. intros f n Hf. eapply traverse_runs; eauto.
  Qed.

  (** ** Lookup *)
  Context {K : Type} (kp : list Z -> position -> res K) (cmp : K -> res comparison) (c : list Z -> comparison).
  Definition compares (e : list Z) : Prop := has_key e /\ forall p, exists k, kp (key_of e) p = Ok k /\ cmp k = Ok (c e).

  Definition found (l : list (list Z)) (r : item ientry) : Prop :=
    match r with
    | Some (Ok e) => In (ie_slice e) l /\ c (ie_slice e) = Eq
    | None => Forall (fun e => c e <> Eq) l
    | _ => False
    end.

  Lemma consistent_app l1 l2 : consistent c (l1 ++ l2) -> consistent c l1 /\ consistent c l2.
  Proof.
    intros H. split; intros x1 a x2 b x3 E.
    - apply (H x1 a x2 b (x3 ++ l2)). rewrite E. rewrite <- !app_assoc. cbn. now rewrite <- app_assoc.
    - apply (H (l1 ++ x1) a x2 b x3). rewrite E. now rewrite <- !app_assoc.
  Qed.
  Lemma consistent_gt l1 e l2 : consistent c (l1 ++ e :: l2) -> c e = Gt -> Forall (fun x => c x <> Eq) l1.
  Proof.
    intros H Hc. apply Forall_forall. intros x Hx. apply in_split in Hx as (a & b & ->).
    destruct (H a x b e l2) as (K1 & _); [now rewrite <- app_assoc|]. rewrite (K1 Hc). discriminate.
  Qed.
  Lemma consistent_lt l1 e l2 : consistent c (l1 ++ e :: l2) -> c e = Lt -> Forall (fun x => c x <> Eq) l2.
  Proof.
    intros H Hc. apply Forall_forall. intros x Hx. apply in_split in Hx as (a & b & ->).
    destruct (H l1 e a x b) as (_ & K1); [reflexivity|]. rewrite (K1 Hc). discriminate.
  Qed.

  Lemma listing_find :
    (forall data stop o l, listing child data stop o l -> bytes_ok data -> stop <= zlen data -> 0 <= o -> Forall compares l -> consistent c l ->
       forall d p, good d -> exists N d' r, good d' /\ found l r /\ forall f, (N <= f)%nat -> find_loop kp cmp sub f (mkRanges data o stop p) d = (d', r)) /\
    (forall data o l, sublisting child data o l -> Forall compares l -> consistent c l ->
       (entry_has_subnode data o = false /\ l = []) \/
       (exists vcn data', entry_has_subnode data o = true /\ 24 <= entry_len data o /\ vcn = field 8 data (o + entry_len data o - 8) /\ vcn <= I64_MAX /\
          child vcn data' /\
          forall d p, good d -> exists N d' r, good d' /\ found l r /\
            forall f, (N <= f)%nat -> find_loop kp cmp sub f (mkRanges data' (24 + field 4 data' 24) (24 + field 4 data' 28) p) d = (d', r))).
  Proof.
    apply listing_mutind.
    - intros data stop o Ho Hb Hs Ho0 _ _ d p Hg. exists 1%nat, d, None. split; auto. split; [constructor|]. intros [|f] Hf; [lia|]. cbn [find_loop].
      now rewrite (proj1 (ranges_next_spec data Hb stop Hs o p Ho0) Ho).
    - intros data stop o l Hlt Hf Hl Hlast _ IH Hb Hs Ho Hcmp Hcons d p Hg. specialize (IH Hcmp Hcons).
      destruct (ranges_next_spec data Hb stop Hs o p Ho) as (_ & _ & _ & Hn). specialize (Hn Hlt Hf ltac:(lia)). rewrite Hlast in Hn.
      set (g' := mkRanges data (zlen data) stop p) in *.
      destruct IH as [(Hns & ->)|(vcn & data' & Hhs & H24 & Hvcn & Hi & Hc & IH)].
      + exists 1%nat, d, None. split; auto. split; [constructor|]. intros [|f] Hfu; [lia|]. cbn [find_loop]. rewrite Hn. change (rg_data g') with data.
        rewrite (er_to_entry_ok data o p Ho Hf Hl). rewrite (entry_key_last data Hb o p Ho Hf Hl kp Hlast).
        now rewrite (entry_subnode_none data Hb o p Ho Hf Hl Hns).
      + destruct (Hsub vcn data' d Hc Hg) as (d1 & p1 & Es & Hg1). destruct (IH d1 p1 Hg1) as (N & d2 & r & Hg2 & Hr & E).
        exists (S N), d2, r. split; auto. split; auto. intros [|f] Hfu; [lia|]. cbn [find_loop]. rewrite Hn. change (rg_data g') with data.
        rewrite (er_to_entry_ok data o p Ho Hf Hl). rewrite (entry_key_last data Hb o p Ho Hf Hl kp Hlast).
        rewrite (entry_subnode_vcn data Hb o p Ho Hf Hl vcn Hhs H24 Hvcn Hi). rewrite Es. apply E. lia.
    - intros data stop o l1 l2 Hlt Hf Hl Hlast _ IH1 _ IH2 Hb Hs Ho Hcmp Hcons d p Hg.
      apply Forall_app in Hcmp as (Hc1 & Hc2). pose proof (Forall_inv Hc2) as Hce. apply Forall_inv_tail in Hc2.
      pose proof (consistent_app l1 (entry_bytes data o :: l2) Hcons) as (Hk1 & Hk2).
      pose proof (consistent_app [entry_bytes data o] l2 Hk2) as (_ & Hk3).
      destruct (ranges_next_spec data Hb stop Hs o p Ho) as (_ & _ & _ & Hn). specialize (Hn Hlt Hf ltac:(lia)). rewrite Hlast in Hn.
      set (g' := mkRanges data (o + entry_len data o) stop (pos_add p (entry_len data o))) in *.
      destruct Hce as (Hhk & Hcmp). destruct (Hcmp (pos_add p 16)) as (k & Ek & Ec).
      assert (Hstep : forall f, find_loop kp cmp sub (S f) (mkRanges data o stop p) d =
        match c (entry_bytes data o) with
        | Eq => (d, Some (Ok (mkIE (entry_bytes data o) p)))
        | Gt => find_loop kp cmp sub f g' d
        | Lt => match ie_subnode_vcn (mkIE (entry_bytes data o) p) with
                | None => (d, None)
                | Some (Ok vcn) => match sub vcn d with
                    | (d1, Ok sg) => find_loop kp cmp sub f sg d1
                    | (d1, Err x) => (d1, Some (Err x)) | (d1, Panic) => (d1, Some Panic) | (d1, OutOfFuel) => (d1, Some OutOfFuel) end
                | Some (Err x) => (d, Some (Err x)) | Some Panic => (d, Some Panic) | Some OutOfFuel => (d, Some OutOfFuel) end
        end).
      { intros f. cbn [find_loop]. rewrite Hn. change (rg_data g') with data. rewrite (er_to_entry_ok data o p Ho Hf Hl).
        rewrite (entry_key data Hb o p Ho Hf Hl kp Hlast Hhk), Ek. cbn [rbind]. rewrite Ec. destruct (c (entry_bytes data o)); reflexivity. }
      destruct (c (entry_bytes data o)) eqn:Ecmp.
      + exists 1%nat, d. eexists. split; auto. split; [|intros [|f] Hfu; [lia|]; apply Hstep]. cbn. split; [apply in_elt|auto].
      + pose proof (consistent_lt _ _ _ Hcons Ecmp) as Hafter.
        assert (Hne : c (entry_bytes data o) <> Eq) by congruence.
        destruct (IH1 Hc1 Hk1) as [(Hns & ->)|(vcn & data' & Hhs & H24 & Hvcn & Hi & Hc & IH)].
        * exists 1%nat, d, None. split; auto. split; [cbn; constructor; auto|]. intros [|f] Hfu; [lia|]. rewrite Hstep.
          now rewrite (entry_subnode_none data Hb o p Ho Hf Hl Hns).
        * destruct (Hsub vcn data' d Hc Hg) as (d1 & p1 & Es & Hg1). destruct (IH d1 p1 Hg1) as (N & d2 & r & Hg2 & Hr & E).
          exists (S N), d2, r. split; auto. split.
          { destruct r as [[e|x| |]|]; cbn in *; try tauto; [split; [apply in_app_iff; tauto|tauto]|]. apply Forall_app. split; auto. }
          intros [|f] Hfu; [lia|]. rewrite Hstep. rewrite (entry_subnode_vcn data Hb o p Ho Hf Hl vcn Hhs H24 Hvcn Hi), Es. apply E. lia.
      + pose proof (consistent_gt _ _ _ Hcons Ecmp) as Hbefore.
        destruct (IH2 Hb Hs ltac:(lia) Hc2 Hk3 d (pos_add p (entry_len data o)) Hg) as (N & d2 & r & Hg2 & Hr & E).
        exists (S N), d2, r. split; auto. split.
        { destruct r as [[e|x| |]|]; cbn in *; try tauto; [split; [apply in_app_iff; cbn; tauto|tauto]|]. apply Forall_app. split; auto. constructor; auto. congruence. }
        intros [|f] Hfu; [lia|]. rewrite Hstep. apply E. lia.
    - intros data o H _ _. left. auto.
    - intros data o vcn data' l Hhs H24 Hvcn Hi Hc _ IH Hcmp Hcons. right. exists vcn, data'. repeat (split; [assumption|]).
      destruct (Hchild _ _ Hc) as (Hb & Hs). intros. apply IH; auto. pose proof (field4_bound data' 24 Hb). lia.
  Qed.
End Tree.
