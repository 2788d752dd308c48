(** * A lookup depends on the nodes on its way only. *)
From Verif Require Import Base Dev Types Record DataRuns Stream NonResident Resident Attribute File Structured AttrList Upcase Index
  Spec SpecMisc SpecValues SpecIndex SpecFaults SpecHoled SpecPath BaseProofs ReaderProofs StructuredProofs NodeProofs FileProofs IndexProofs DirectoryProofs IndexTotalProofs DirTotalProofs
  NameFindProofs IndexClaims FaultProofs FaultSessionProofs HoledProofs.
From Coq Require Import Lia.

Section Way.
  Context (child : Z -> list Z -> Prop) (Hchild : forall vcn data, child vcn data -> bytes_ok data /\ 24 + field 4 data 28 <= zlen data).
  Context (c : list Z -> comparison).

  (** What a lookup from some node on gives, if the nodes [way] are read as they are or not at all. *)
  Definition finds (way : list Z) (data : list Z) (stop o : Z) (l : list (list Z)) : Prop :=
    forall (sub : Z -> M ranges) (good : dev -> Prop) (lost : Z -> err -> Prop) K (kp : list Z -> position -> res K) cmp,
      (forall vcn data' d, In vcn way -> child vcn data' -> good d -> exists d', good d' /\
         ((exists p, sub vcn d = (d', Ok (mkRanges data' (24 + field 4 data' 24) (24 + field 4 data' 28) p))) \/ exists x, sub vcn d = (d', Err x) /\ lost vcn x)) ->
      Forall (compares kp cmp c) l ->
      forall d p, good d -> exists N d' r, good d' /\ (found c l r \/ exists vcn x, In vcn way /\ r = Some (Err x) /\ lost vcn x) /\
        forall f, (N <= f)%nat -> find_loop kp cmp sub f (mkRanges data o stop p) d = (d', r).

  Lemma way_on data stop o way : o < stop -> entry_fits data o -> 16 <= entry_len data o -> entry_is_last data o = false ->
    way_down child data stop (o + entry_len data o) way -> way_down child data stop o way.
  Proof.
    intros Hlt Hf Hl Hlast H. inversion H as [|? ? ? offs e o' vcn data' way' W I R C D]; subst; [constructor|].
    eapply (wd_down _ _ _ _ (o :: offs)); [apply nw_entry; eauto; lia|right; exact I|exact R|exact C|exact D].
  Qed.
  Lemma way_here data stop o vcn data' way : bytes_ok data -> stop <= zlen data -> 0 <= o -> o < stop -> entry_fits data o -> 16 <= entry_len data o ->
    entry_has_subnode data o = true -> 24 <= entry_len data o -> vcn = field 8 data (o + entry_len data o - 8) -> child vcn data' ->
    way_down child data' (24 + field 4 data' 28) (24 + field 4 data' 24) way -> way_down child data stop o (vcn :: way).
  Proof.
    intros Hb Hs Ho Hlt Hf Hl Hh H24 Hv Hc D. destruct (entry_is_last data o) eqn:El.
    - eapply wd_down; [apply nw_last; eauto; lia|left; reflexivity|split; [|split]; eauto|exact Hc|exact D].
    - destruct (node_walk_exists data stop Hb Hs (o + entry_len data o) ltac:(lia)) as (offs & e & W).
      eapply wd_down; [apply nw_entry; eauto; lia|left; reflexivity|split; [|split]; eauto|exact Hc|exact D].
  Qed.

  Lemma listing_way :
    (forall data stop o l, listing child data stop o l -> bytes_ok data -> stop <= zlen data -> 0 <= o -> consistent c l ->
       exists way, way_down child data stop o way /\ finds way data stop o l) /\
    (forall data o l, sublisting child data o l -> consistent c l ->
       (entry_has_subnode data o = false /\ l = []) \/
       (exists vcn data' way, entry_has_subnode data o = true /\ 24 <= entry_len data o /\ vcn = field 8 data (o + entry_len data o - 8) /\ vcn <= I64_MAX /\
          child vcn data' /\ way_down child data' (24 + field 4 data' 28) (24 + field 4 data' 24) way /\
          finds way data' (24 + field 4 data' 28) (24 + field 4 data' 24) l)).
  Proof.
    apply listing_mutind.
    - intros data stop o Ho Hb Hs Ho0 _. exists []. split; [constructor|]. intros sub good lost K kp cmp Hsub _ d p Hg.
      exists 1%nat, d, None. split; auto. split; [left; constructor|]. intros [|f] Hf; [lia|]. cbn [find_loop].
      now rewrite (proj1 (ranges_next_spec data Hb stop Hs o p Ho0) Ho).
    - intros data stop o l Hlt Hf Hl Hlast _ IH Hb Hs Ho Hcons. specialize (IH Hcons).
      destruct IH as [(Hns & ->)|(vcn & data' & way & Hhs & H24 & Hvcn & Hi & Hc & Hway & IH)].
      + exists []. split; [constructor|]. intros sub good lost K kp cmp Hsub _ d p Hg.
        destruct (ranges_next_spec data Hb stop Hs o p Ho) as (_ & _ & _ & Hn). specialize (Hn Hlt Hf ltac:(lia)). rewrite Hlast in Hn.
        exists 1%nat, d, None. split; auto. split; [left; constructor|]. intros [|f] Hfu; [lia|]. cbn [find_loop]. rewrite Hn. cbn [rg_data].
        rewrite (er_to_entry_ok data o p Ho Hf Hl). rewrite (entry_key_last data Hb o p Ho Hf Hl kp Hlast).
        now rewrite (entry_subnode_none data Hb o p Ho Hf Hl Hns).
      + exists (vcn :: way). split; [eapply way_here; eauto|]. intros sub good lost K kp cmp Hsub Hcmp d p Hg.
        destruct (ranges_next_spec data Hb stop Hs o p Ho) as (_ & _ & _ & Hn). specialize (Hn Hlt Hf ltac:(lia)). rewrite Hlast in Hn.
        assert (Hstep : forall f, find_loop kp cmp sub (S f) (mkRanges data o stop p) d = match sub vcn d with
                    | (d1, Ok sg) => find_loop kp cmp sub f sg d1
                    | (d1, Err x) => (d1, Some (Err x)) | (d1, Panic) => (d1, Some Panic) | (d1, OutOfFuel) => (d1, Some OutOfFuel) end).
        { intros f. cbn [find_loop]. rewrite Hn. cbn [rg_data].
          rewrite (er_to_entry_ok data o p Ho Hf Hl). rewrite (entry_key_last data Hb o p Ho Hf Hl kp Hlast).
          now rewrite (entry_subnode_vcn data Hb o p Ho Hf Hl vcn Hhs H24 Hvcn Hi). }
        destruct (Hsub vcn data' d (or_introl eq_refl) Hc Hg) as (d1 & Hg1 & [(p1 & Es)|(x & Es & Hx)]).
        * destruct (IH sub good lost K kp cmp (fun v dt dd Hv => Hsub v dt dd (or_intror Hv)) Hcmp d1 p1 Hg1) as (N & d2 & r & Hg2 & Hr & E).
          exists (S N), d2, r. split; auto. split.
          { destruct Hr as [Hr|(v & x & Hv & Hr)]; [now left|]. right. exists v, x. split; [now right|auto]. }
          intros [|f] Hfu; [lia|]. rewrite Hstep, Es. apply E. lia.
        * exists 1%nat, d1, (Some (Err x)). split; auto. split; [right; exists vcn, x; split; [now left|auto]|]. intros [|f] Hfu; [lia|]. now rewrite Hstep, Es.
    - intros data stop o l1 l2 Hlt Hf Hl Hlast _ IH1 _ IH2 Hb Hs Ho Hcons.
      pose proof (consistent_app c l1 (entry_bytes data o :: l2) Hcons) as (Hk1 & Hk2).
      pose proof (consistent_app c [entry_bytes data o] l2 Hk2) as (_ & Hk3).
      assert (Hstep : forall (sub : Z -> M ranges) K (kp : list Z -> position -> res K) cmp, compares kp cmp c (entry_bytes data o) ->
        forall p d f, find_loop kp cmp sub (S f) (mkRanges data o stop p) d =
        match c (entry_bytes data o) with
        | Eq => (d, Some (Ok (mkIE (entry_bytes data o) p)))
        | Gt => find_loop kp cmp sub f (mkRanges data (o + entry_len data o) stop (pos_add p (entry_len data o))) d
        | Lt => match ie_subnode_vcn (mkIE (entry_bytes data o) p) with
                | None => (d, None)
                | Some (Ok vcn) => match sub vcn d with
                    | (d1, Ok sg) => find_loop kp cmp sub f sg d1
                    | (d1, Err x) => (d1, Some (Err x)) | (d1, Panic) => (d1, Some Panic) | (d1, OutOfFuel) => (d1, Some OutOfFuel) end
                | Some (Err x) => (d, Some (Err x)) | Some Panic => (d, Some Panic) | Some OutOfFuel => (d, Some OutOfFuel) end
        end).
      { intros sub K kp cmp (Hhk & Hcmp) p d f. destruct (Hcmp (pos_add p 16)) as (k & Ek & Ec).
        destruct (ranges_next_spec data Hb stop Hs o p Ho) as (_ & _ & _ & Hn). specialize (Hn Hlt Hf ltac:(lia)). rewrite Hlast in Hn.
        cbn [find_loop]. rewrite Hn. cbn [rg_data]. rewrite (er_to_entry_ok data o p Ho Hf Hl).
        rewrite (entry_key data Hb o p Ho Hf Hl kp Hlast Hhk), Ek. cbn [rbind]. rewrite Ec. destruct (c (entry_bytes data o)); reflexivity. }
      destruct (c (entry_bytes data o)) eqn:Ecmp.
      + exists []. split; [constructor|]. intros sub good lost K kp cmp Hsub Hcmp d p Hg.
        assert (Hce : compares kp cmp c (entry_bytes data o)) by (apply Forall_app in Hcmp as (_ & Hc2); exact (Forall_inv Hc2)).
        exists 1%nat, d. eexists. split; auto. split; [|intros [|f] Hfu; [lia|]; apply Hstep, Hce]. left. cbn. split; [apply in_elt|auto].
      + pose proof (consistent_lt c _ _ _ Hcons Ecmp) as Hafter.
        assert (Hne : c (entry_bytes data o) <> Eq) by congruence.
        destruct (IH1 Hk1) as [(Hns & ->)|(vcn & data' & way & Hhs & H24 & Hvcn & Hi & Hc & Hway & IH)].
        * exists []. split; [constructor|]. intros sub good lost K kp cmp Hsub Hcmp d p Hg. pose proof (Forall_inv Hcmp) as Hce.
          exists 1%nat, d, None. split; auto. split; [left; cbn; constructor; auto|]. intros [|f] Hfu; [lia|]. rewrite (Hstep sub K kp cmp Hce).
          now rewrite (entry_subnode_none data Hb o p Ho Hf Hl Hns).
        * exists (vcn :: way). split; [eapply way_here; eauto|]. intros sub good lost K kp cmp Hsub Hcmp d p Hg.
          apply Forall_app in Hcmp as (Hc1 & Hc2). pose proof (Forall_inv Hc2) as Hce.
          destruct (Hsub vcn data' d (or_introl eq_refl) Hc Hg) as (d1 & Hg1 & [(p1 & Es)|(x & Es & Hx)]).
          -- destruct (IH sub good lost K kp cmp (fun v dt dd Hv => Hsub v dt dd (or_intror Hv)) Hc1 d1 p1 Hg1) as (N & d2 & r & Hg2 & Hr & E).
             exists (S N), d2, r. split; auto. split.
             { destruct Hr as [Hr|(v & x & Hv & Hr)]; [left|right; exists v, x; split; [now right|auto]].
               destruct r as [[e|x| |]|]; cbn in *; try tauto; [split; [apply in_app_iff; tauto|tauto]|]. apply Forall_app. split; auto. }
             intros [|f] Hfu; [lia|]. rewrite (Hstep sub K kp cmp Hce). rewrite (entry_subnode_vcn data Hb o p Ho Hf Hl vcn Hhs H24 Hvcn Hi), Es. apply E. lia.
          -- exists 1%nat, d1, (Some (Err x)). split; auto. split; [right; exists vcn, x; split; [now left|auto]|]. intros [|f] Hfu; [lia|].
             rewrite (Hstep sub K kp cmp Hce). now rewrite (entry_subnode_vcn data Hb o p Ho Hf Hl vcn Hhs H24 Hvcn Hi), Es.
      + pose proof (consistent_gt c _ _ _ Hcons Ecmp) as Hbefore.
        destruct (IH2 Hb Hs ltac:(lia) Hk3) as (way & Hway & IH). exists way. split; [now apply way_on|]. intros sub good lost K kp cmp Hsub Hcmp d p Hg.
        apply Forall_app in Hcmp as (Hc1 & Hc2). pose proof (Forall_inv Hc2) as Hce. apply Forall_inv_tail in Hc2.
        destruct (IH sub good lost K kp cmp Hsub Hc2 d (pos_add p (entry_len data o)) Hg) as (N & d2 & r & Hg2 & Hr & E).
        exists (S N), d2, r. split; auto. split.
        { destruct Hr as [Hr|Hr]; [left|now right].
          destruct r as [[e|x| |]|]; cbn in *; try tauto; [split; [apply in_app_iff; cbn; tauto|tauto]|]. apply Forall_app. split; auto. constructor; auto. congruence. }
        intros [|f] Hfu; [lia|]. rewrite (Hstep sub K kp cmp Hce). apply E. lia.
    - intros data o H _. left. auto.
    - intros data o vcn data' l Hhs H24 Hvcn Hi Hc _ IH Hcons.
      destruct (Hchild _ _ Hc) as (Hb & Hs). pose proof (field4_bound data' 24 Hb).
      destruct (IH Hb Hs ltac:(lia) Hcons) as (way & Hway & Hf). right. exists vcn, data', way. repeat (split; [assumption|]). exact Hf.
  Qed.
End Way.

Lemma child_sound cs root alloc vcn data : bytes_ok alloc -> index_child cs root alloc vcn data -> bytes_ok data /\ 24 + field 4 data 28 <= zlen data.
Proof.
  intros Hb ([H1 H2 H3 H4] & _). split.
  - eapply stored_bytes_ok; [|exact H2]. now apply bytes_ok_slice.
  - destruct H3 as (_ & H3 & H5). lia.
Qed.

(** ** Directories *)
Lemma directory_way nt root before l c : bytes_ok root -> bytes_ok before -> index_listing (cluster_size nt) root before l -> consistent c l ->
  exists way, way_down (index_child (cluster_size nt) root before) (root_entries root) (zlen (root_entries root)) 0 way /\
  forall img f offs clean alloc fuel d K (kp : list Z -> position -> res K) cmp, bytes_ok img -> bytes_ok (f_data f) -> 24 <= zlen (f_data f) ->
  attr_walk (f_data f) (field 2 (f_data f) 20) offs clean -> no_attribute_list (f_data f) offs -> 1 <= cluster_size nt ->
  is_directory (cluster_size nt) img (f_data f) offs root alloc ->
  (length offs < fuel)%nat -> d_img d = img -> ~ reports d Interrupted ->
  Forall (fun e => has_key e /\ forall p, exists k, kp (key_of e) p = Ok k /\ cmp k = Ok (c e)) l ->
  (same_on (cluster_size nt) root before alloc way -> exists ix, directory_index fuel nt f d = (d, Ok ix) /\
    exists N d' r, d_img d' = img /\ (forall n, (N <= n)%nat -> index_find kp cmp n nt ix d = (d', r)) /\
      answer_ok c l r (fun x => exists k, reports d k /\ x = EIo k)) /\
  (arrays_clear (cluster_size nt) (root_record_size root) alloc -> sizes_small (cluster_size nt) (root_record_size root) alloc ->
   same_or_damaged_on (cluster_size nt) root before alloc way -> exists ix, directory_index fuel nt f d = (d, Ok ix) /\
    exists N d' r, d_img d' = img /\ (forall n, (N <= n)%nat -> index_find kp cmp n nt ix d = (d', r)) /\
      answer_ok c l r (fun x => (exists k, reports d k /\ x = EIo k) \/ exists vcn, In vcn way /\ damaged (index_child (cluster_size nt) root alloc) vcn)).
Proof.
  intros Hrb Hbb L Hcons. set (cs := cluster_size nt) in *.
  destruct (proj1 (listing_way (index_child cs root before) (fun v dt => child_sound cs root before v dt Hbb) c) _ _ _ _ L ltac:(now apply bytes_ok_slice) ltac:(lia) ltac:(lia) Hcons)
    as (way & Hway & F). exists way. split; auto.
  intros img f offs clean alloc fuel d K kp cmp Hib Hb Hl W Hno Hcs D Hfu Hd Hint Hcmp.
  destruct (directory_index_ok nt img f offs clean root alloc Hb Hl W Hno D fuel d Hfu) as (ix & E & Hix).
  pose proof Hix as (q & Hroot & _). set (gd := fun e => d_img e = img /\ forall k, reports e k -> reports d k).
  assert (Hgd : gd d) by (split; auto).
  assert (Hfuel : forall n d1, index_find kp cmp n nt ix d1 = find_loop kp cmp (index_subnode 0 nt ix) n (mkRanges (root_entries root) 0 (zlen (root_entries root)) q) d1).
  { intros n d1. unfold index_find. rewrite Hroot. apply find_loop_ext. intros. eapply subnode_fuel; eauto. }
  split; [intros Hsame|intros Hcl Hsz Hsame]; exists ix; (split; [exact E|]).
  - destruct (F (index_subnode 0 nt ix) gd (device_lost d) K kp cmp) with (d := d) (p := q) as (N & d' & r & Hg' & Hr & H); auto.
    + intros vcn data' d1 Hv Hc Hg1. apply (Hsame vcn data' Hv) in Hc.
      destruct (child_faults nt img f offs clean root alloc Hib Hb Hl W Hcs D d Hint ix vcn data' d1 Hix Hc Hg1) as (d2 & Hg2 & [(p & Hp & _)|(x & Hx & Hx1 & _)]); exists d2; split; auto.
      * left. eauto.
      * right. eauto.
    + exists N, d', r. split; [apply Hg'|]. split; [intros n Hn; rewrite Hfuel; auto|].
      destruct Hr as [Hr|(v & x & Hv & -> & Hx)]; [destruct r as [[e|x| |]|]; cbn in *; tauto|]. exact Hx.
  - destruct (F (index_subnode 0 nt ix) gd (fun v x => device_lost d v x \/ damaged (index_child cs root alloc) v) K kp cmp) with (d := d) (p := q) as (N & d' & r & Hg' & Hr & H); auto.
    + intros vcn data' d1 Hv Hc Hg1. destruct (Hsame vcn Hv) as [Hs|Hdam].
      * apply Hs in Hc.
        destruct (child_faults nt img f offs clean root alloc Hib Hb Hl W Hcs D d Hint ix vcn data' d1 Hix Hc Hg1) as (d2 & Hg2 & [(p & Hp & _)|(x & Hx & Hx1 & _)]); exists d2; split; auto.
        -- left. eauto.
        -- right. eauto.
      * destruct (hole_faults nt img f offs root alloc Hib Hb Hl Hcs D d Hint Hcl Hsz ix vcn d1 Hix Hdam Hg1) as (d2 & x & Hg2 & Hx & _).
        exists d2. split; auto. right. exists x. split; auto.
    + exists N, d', r. split; [apply Hg'|]. split; [intros n Hn; rewrite Hfuel; auto|].
      destruct Hr as [Hr|(v & x & Hv & -> & [Hx|Hx])]; [destruct r as [[e|x| |]|]; cbn in *; tauto|cbn; left; exact Hx|cbn; right; eauto].
Qed.

(** Lookup by name. *)
Lemma directory_name_way nt root before l t name : bytes_ok root -> bytes_ok before -> index_listing (cluster_size nt) root before l ->
  upcase_table nt = Some t -> zlen t = 65536 -> Forall unit_ok name ->
  Forall (fun e => exists us, named e us) l -> names_sorted (fun a b => lex_lt (upper t a) (upper t b)) l ->
  exists way, way_down (index_child (cluster_size nt) root before) (root_entries root) (zlen (root_entries root)) 0 way /\
  forall img f offs clean alloc fuel d, bytes_ok img -> bytes_ok (f_data f) -> 24 <= zlen (f_data f) ->
  attr_walk (f_data f) (field 2 (f_data f) 20) offs clean -> no_attribute_list (f_data f) offs -> 1 <= cluster_size nt ->
  is_directory (cluster_size nt) img (f_data f) offs root alloc ->
  (length offs < fuel)%nat -> d_img d = img -> ~ reports d Interrupted ->
  (same_on (cluster_size nt) root before alloc way -> exists ix, directory_index fuel nt f d = (d, Ok ix) /\
    exists N d' r, d_img d' = img /\ (forall n, (N <= n)%nat -> file_name_find n nt ix name d = (d', r)) /\
      name_answer_ok t name l r (fun x => exists k, reports d k /\ x = EIo k)) /\
  (arrays_clear (cluster_size nt) (root_record_size root) alloc -> sizes_small (cluster_size nt) (root_record_size root) alloc ->
   same_or_damaged_on (cluster_size nt) root before alloc way -> exists ix, directory_index fuel nt f d = (d, Ok ix) /\
    exists N d' r, d_img d' = img /\ (forall n, (N <= n)%nat -> file_name_find n nt ix name d = (d', r)) /\
      name_answer_ok t name l r (fun x => (exists k, reports d k /\ x = EIo k) \/ exists vcn, In vcn way /\ damaged (index_child (cluster_size nt) root alloc) vcn)).
Proof.
  intros Hrb Hbb L Ht Hlt Hn Hnm Hs.
  assert (Lb : Forall bytes_ok l).
  { eapply listing_bytes; [|exact L|now apply bytes_ok_slice]. intros vcn data Hc. exact (proj1 (child_sound _ _ _ _ _ Hbb Hc)). }
  assert (Lc : Forall (compares fn_from_slice (fun k => upcase_cmp nt name (units (fn_name k))) (answer nt name)) l).
  { apply Forall_forall. intros e He. destruct (proj1 (Forall_forall _ _) Hnm e He) as (us & N). apply (answer_compares nt t name Ht Hlt Hn e us); auto. now apply (proj1 (Forall_forall _ _) Lb). }
  assert (Conv : forall r bad, answer_ok (answer nt name) l r bad -> name_answer_ok t name l r bad).
  { intros r bad F. clear - F Lb Hnm Ht Hlt Hn. rewrite Forall_forall in Lb, Hnm. destruct r as [[e|x| |]|]; cbn in F |- *; auto.
    - destruct F as [F1 F2]. split; auto. destruct (Hnm _ F1) as (us & Nm). exists us. split; auto.
      destruct (answer_spec nt t name Ht Hlt Hn (ie_slice e) (Lb _ F1)) as (_ & A & _). rewrite (named_units _ _ Nm). symmetry. now apply A.
    - intros e us Ie Nm K. rewrite Forall_forall in F. apply (F _ Ie).
      destruct (answer_spec nt t name Ht Hlt Hn e (Lb _ Ie)) as (_ & A & _). apply A. rewrite <- (named_units _ _ Nm). now symmetry. }
  destruct (directory_way nt root before l (answer nt name) Hrb Hbb L (answer_consistent nt t name Ht Hlt Hn l Lb Hnm Hs)) as (way & Hway & H).
  exists way. split; auto. intros img f offs clean alloc fuel d Hib Hb Hl W Hno Hcs D Hfu Hd Hint.
  destruct (H img f offs clean alloc fuel d _ fn_from_slice (fun k => upcase_cmp nt name (units (fn_name k))) Hib Hb Hl W Hno Hcs D Hfu Hd Hint Lc) as (H1 & H2).
  split; [intros Hsame; destruct (H1 Hsame) as (ix & E & N & d' & r & Hd' & F & A)|intros Hcl Hsz Hsame; destruct (H2 Hcl Hsz Hsame) as (ix & E & N & d' & r & Hd' & F & A)];
    exists ix; split; auto; exists N, d', r; split; auto.
Qed.
