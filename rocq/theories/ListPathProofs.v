(** * C73 for directories whose attributes are spread over several file records. *)
From Coq Require Import Lia.
From Verif Require Import Base Dev Types Record DataRuns Stream NonResident Resident Attribute File Guid Structured AttrList Upcase Index
  Spec SpecMisc SpecValues SpecIndex SpecAttrList SpecListDir SpecFaults SpecHoled SpecPath BaseProofs ReaderProofs StructuredProofs NodeProofs FileProofs IndexProofs DirectoryProofs IndexTotalProofs
  NameFindProofs IndexClaims FaultProofs FaultSessionProofs HoledProofs ListDirProofs ListHoledProofs PathProofs.

Lemma listed_way nt root before l c : bytes_ok root -> bytes_ok before -> index_listing (cluster_size nt) root before l -> consistent c l ->
  exists way, way_down (index_child (cluster_size nt) root before) (root_entries root) (zlen (root_entries root)) 0 way /\
  forall img ml f prior lo after clean bs offs e vs alloc fuel d K (kp : list Z -> position -> res K) cmp, file_with_list img nt ml f prior lo after clean bs offs e vs ->
  let views := map VBase prior ++ vs ++ map VBase after in
  listed_directory img nt ml f bs e views root alloc -> (length offs + length views + 3 < fuel)%nat -> d_img d = img -> ~ reports d Interrupted ->
  Forall (fun e => has_key e /\ forall p, exists k, kp (key_of e) p = Ok k /\ cmp k = Ok (c e)) l ->
  exists d1 r, directory_index fuel nt f d = (d1, r) /\
  ((exists k, reports d k /\ r = Err (EIo k)) \/
   exists ix, r = Ok ix /\ forall d2, d_img d2 = img -> ~ reports d2 Interrupted ->
   (same_on (cluster_size nt) root before alloc way ->
    exists N d' r, d_img d' = img /\ (forall n, (N <= n)%nat -> index_find kp cmp n nt ix d2 = (d', r)) /\
      answer_ok c l r (fun x => exists k, reports d2 k /\ x = EIo k)) /\
   ((root_is_large root = true -> alloc <> []) ->
    arrays_clear (cluster_size nt) (root_record_size root) alloc -> sizes_small (cluster_size nt) (root_record_size root) alloc ->
    same_or_damaged_on (cluster_size nt) root before alloc way ->
    exists N d' r, d_img d' = img /\ (forall n, (N <= n)%nat -> index_find kp cmp n nt ix d2 = (d', r)) /\
      answer_ok c l r (fun x => (exists k, reports d2 k /\ x = EIo k) \/ exists vcn, In vcn way /\ damaged (index_child (cluster_size nt) root alloc) vcn))).
Proof.
  intros Hrb Hbb L Hcons. set (cs := cluster_size nt) in *.
  destruct (proj1 (listing_way (index_child cs root before) (fun v dt => child_sound cs root before v dt Hbb) c) _ _ _ _ L ltac:(now apply bytes_ok_slice) ltac:(lia) ltac:(lia) Hcons)
    as (way & Hway & F). exists way. split; auto.
  intros img ml f prior lo after clean bs offs e vs alloc fuel d K kp cmp Hff views D Hfu Hd Hint Hcmp.
  destruct (lh_open _ _ _ _ _ _ _ _ _ _ _ _ _ _ Hff D d Hd Hint fuel Hfu) as (d1 & r & E & _ & _ & _ & H). exists d1, r. split; auto.
  destruct H as [H|(ix & -> & Hix)]; [now left|right]. exists ix. split; auto. intros d2 Hd2 Hint2.
  pose proof Hix as ((q & Hroot) & _).
  assert (Hmore : forall K0 N d' r, (r <> Some OutOfFuel) ->
    (forall n, (N <= n)%nat -> find_loop kp cmp (index_subnode K0 nt ix) n (mkRanges (root_entries root) 0 (zlen (root_entries root)) q) d2 = (d', r)) ->
    forall n, (N + K0 <= n)%nat -> index_find kp cmp n nt ix d2 = (d', r)).
  { intros K0 N d' r Hr H n Hn. unfold index_find. rewrite Hroot. rewrite <- (H n ltac:(lia)). apply find_loop_more; [lia|]. rewrite (H n ltac:(lia)). exact Hr. }
  split; [intros Hsame|intros Hne Hcl Hsz Hsame].
  - destruct (ld_subnode _ _ _ _ _ _ _ _ _ _ _ _ _ _ Hff D ix (without_faults d2) Hix (faultfree_good img d2 Hd2)) as (G & K0 & HG & _ & HGl & Hsub).
    destruct (F (index_subnode K0 nt ix) (hd img d2 G) (device_lost d2) K kp cmp) with (d := d2) (p := q) as (N & d' & r & Hg' & Hr & H); auto.
    + intros vcn data' d3 Hv Hc Hg1. apply (Hsame vcn data' Hv) in Hc. destruct (Hsub vcn data' (without_faults d3) Hc (proj2 Hg1)) as (e1 & p & E1 & HG1).
      destruct (lh_subnode img d2 G HGl _ _ d3 (lh_honest img nt d2 Hint2 ix G K0 vcn d3 Hg1) (index_subnode_evolves K0 nt ix vcn) Hg1 (ex_intro _ e1 (conj E1 HG1)))
        as (d4 & Hg2 & [(E2 & _)|(k & Hk & E2 & _)]); exists d4; split; auto; [left; eauto|].
      right. exists (EIo k). split; auto. exists k. auto.
    + split; auto.
    + exists (N + K0)%nat, d', r. split; [apply Hg'|]. split.
      * apply Hmore; auto. destruct Hr as [Hr|(v & x & Hv & -> & Hx)]; [destruct r as [[]|]; cbn in Hr; try discriminate; contradiction|discriminate].
      * destruct Hr as [Hr|(v & x & Hv & -> & Hx)]; [destruct r as [[e0|x| |]|]; cbn in *; tauto|]. exact Hx.
  - destruct (ld_sub_total _ _ _ _ _ _ _ _ _ _ _ _ _ _ Hff D Hne Hcl false ix (without_faults d2) (fun _ => Hsz) Hix (faultfree_good img d2 Hd2)) as (G & K0 & HG & _ & HGl & Hsub).
    destruct (F (index_subnode K0 nt ix) (hd img d2 G) (fun v x => device_lost d2 v x \/ damaged (index_child cs root alloc) v) K kp cmp) with (d := d2) (p := q) as (N & d' & r & Hg' & Hr & H); auto.
    + intros vcn data' d3 Hv Hc Hg1. destruct (Hsub vcn (without_faults d3) (proj2 Hg1)) as (e1 & r & E1 & HG1 & Hfine & Hr & Hok).
      destruct (lh_subnode img d2 G HGl _ _ d3 (lh_honest img nt d2 Hint2 ix G K0 vcn d3 Hg1) (index_subnode_evolves K0 nt ix vcn) Hg1 (ex_intro _ e1 (conj E1 HG1)))
        as (d4 & Hg2 & [(E2 & _)|(k & Hk & E2 & _)]); exists d4; split; auto.
      * destruct (Hsame vcn Hv) as [Hs|Hdam].
        -- apply Hs in Hc. destruct (Hok data' Hc) as (p & ->). left. eauto.
        -- right. destruct r as [g|x| |]; [|eauto|discriminate Hfine|destruct Hfine]. destruct (Hr g eq_refl) as (_ & dt & _ & Hch & _). now destruct (Hdam dt).
      * right. exists (EIo k). split; auto. left. exists k. auto.
    + split; auto.
    + exists (N + K0)%nat, d', r. split; [apply Hg'|]. split.
      * apply Hmore; auto. destruct Hr as [Hr|(v & x & Hv & -> & Hx)]; [destruct r as [[]|]; cbn in Hr; try discriminate; contradiction|discriminate].
      * destruct Hr as [Hr|(v & x & Hv & -> & [Hx|Hx])]; [destruct r as [[e0|x| |]|]; cbn in *; tauto|cbn; left; exact Hx|cbn; right; eauto].
Qed.

Lemma listed_name_way nt root before l t name : bytes_ok root -> bytes_ok before -> index_listing (cluster_size nt) root before l ->
  upcase_table nt = Some t -> zlen t = 65536 -> Forall unit_ok name ->
  Forall (fun e => exists us, named e us) l -> names_sorted (fun a b => lex_lt (upper t a) (upper t b)) l ->
  exists way, way_down (index_child (cluster_size nt) root before) (root_entries root) (zlen (root_entries root)) 0 way /\
  forall img ml f prior lo after clean bs offs e vs alloc fuel d, file_with_list img nt ml f prior lo after clean bs offs e vs ->
  let views := map VBase prior ++ vs ++ map VBase after in
  listed_directory img nt ml f bs e views root alloc -> (length offs + length views + 3 < fuel)%nat -> d_img d = img -> ~ reports d Interrupted ->
  exists d1 r, directory_index fuel nt f d = (d1, r) /\
  ((exists k, reports d k /\ r = Err (EIo k)) \/
   exists ix, r = Ok ix /\ forall d2, d_img d2 = img -> ~ reports d2 Interrupted ->
   (same_on (cluster_size nt) root before alloc way ->
    exists N d' r, d_img d' = img /\ (forall n, (N <= n)%nat -> file_name_find n nt ix name d2 = (d', r)) /\
      name_answer_ok t name l r (fun x => exists k, reports d2 k /\ x = EIo k)) /\
   ((root_is_large root = true -> alloc <> []) ->
    arrays_clear (cluster_size nt) (root_record_size root) alloc -> sizes_small (cluster_size nt) (root_record_size root) alloc ->
    same_or_damaged_on (cluster_size nt) root before alloc way ->
    exists N d' r, d_img d' = img /\ (forall n, (N <= n)%nat -> file_name_find n nt ix name d2 = (d', r)) /\
      name_answer_ok t name l r (fun x => (exists k, reports d2 k /\ x = EIo k) \/ exists vcn, In vcn way /\ damaged (index_child (cluster_size nt) root alloc) vcn))).
Proof.
  intros Hrb Hbb L Ht Hlt Hn Hnm Hs.
  assert (Lb : Forall bytes_ok l).
  { eapply listing_bytes; [|exact L|now apply bytes_ok_slice]. intros vcn data Hc. exact (proj1 (child_sound _ _ _ _ _ Hbb Hc)). }
  assert (Lc : Forall (compares fn_from_slice (fun k => upcase_cmp nt name (units (fn_name k))) (answer nt name)) l).
  { apply Forall_forall. intros e He. destruct (proj1 (Forall_forall _ _) Hnm e He) as (us & N). apply (answer_compares nt t name Ht Hlt Hn e us); auto. now apply (proj1 (Forall_forall _ _) Lb). }
  assert (Conv : forall r bad, answer_ok (answer nt name) l r bad -> name_answer_ok t name l r bad).
  { intros r bad F. clear - F Lb Hnm Ht Hlt Hn. rewrite Forall_forall in Lb, Hnm. destruct r as [[e|x| |]|]; cbn in F |- *; auto.
    - destruct F as [F1 F2]. split; auto. destruct (Hnm _ F1) as (us & Nm). exists us. split; auto.
      destruct (answer_spec nt t name Ht Hlt Hn (ie_slice e) (Lb _ F1)) as (_ & A & _). rewrite (named_units _ _ Nm). symmetry. now apply A.
    - intros e us Ie Nm K. rewrite Forall_forall in F. apply (F _ Ie).
      destruct (answer_spec nt t name Ht Hlt Hn e (Lb _ Ie)) as (_ & A & _). apply A. rewrite <- (named_units _ _ Nm). now symmetry. }
  destruct (listed_way nt root before l (answer nt name) Hrb Hbb L (answer_consistent nt t name Ht Hlt Hn l Lb Hnm Hs)) as (way & Hway & H).
  exists way. split; auto. intros img ml f prior lo after clean bs offs e vs alloc fuel d Hff views D Hfu Hd Hint.
  destruct (H img ml f prior lo after clean bs offs e vs alloc fuel d _ fn_from_slice (fun k => upcase_cmp nt name (units (fn_name k))) Hff D Hfu Hd Hint Lc) as (d1 & r & E & Hr).
  exists d1, r. split; auto. destruct Hr as [Hr|(ix & -> & Hr)]; [now left|right]. exists ix. split; auto. intros d2 Hd2 Hi2. destruct (Hr d2 Hd2 Hi2) as (H1 & H2).
  split; [intros Hsame; destruct (H1 Hsame) as (N & d' & r & Hd' & F & A)|intros Hne Hcl Hsz Hsame; destruct (H2 Hne Hcl Hsz Hsame) as (N & d' & r & Hd' & F & A)];
    exists N, d', r; split; auto.
Qed.
