(** * The commands of the example program on a stored volume. *)
From Verif Require Import Base Dev Types Record DataRuns Stream NonResident Resident BootSector Attribute File Structured AttrList Upcase Index Shell
  Spec SpecMisc SpecValues SpecIndex SpecAttrList SpecListDir SpecVolume BaseProofs DevProofs ReaderProofs RecordProofs StreamProofs NonResidentProofs BootSectorProofs AttributeProofs FileProofs
  StructuredProofs ValueProofs AttrListProofs MiscProofs NodeProofs IndexProofs DirectoryProofs NameFindProofs IndexClaims UpcaseProofs EvolveProofs AccessProofs PropsValues SpecInfo FuelProofs GoodProofs ListDirProofs ListVolumeProofs ShellProofs ShellInfoProofs.
From Coq Require Import Lia.

(** The entries of a listing are not flagged as last ones, and are at least 16 bytes long. *)
Definition plain_entry (e : list Z) : Prop := bytes_ok e /\ 16 <= zlen e /\ field 2 e 8 = zlen e /\ Z.testbit (field 1 e 12) 1 = false.
Lemma listing_plain (child : Z -> list Z -> Prop) : (forall vcn data, child vcn data -> bytes_ok data) -> forall data stop o l,
  listing child data stop o l -> bytes_ok data -> 0 <= o -> Forall plain_entry l.
Proof.
  intros Hc.
  apply (listing_ind2 child (fun data stop o l _ => bytes_ok data -> 0 <= o -> Forall plain_entry l) (fun data o l _ => bytes_ok data -> 0 <= o -> Forall plain_entry l)); auto.
  - intros data stop o l1 l2 _ (F1 & F2) Hl Hlast _ IH1 _ IH2 Hb Ho. apply Forall_app. split; auto. constructor; [|apply IH2; auto; lia].
    unfold entry_len in *. split; [now apply bytes_ok_slice|]. unfold entry_bytes, entry_len. split; [rewrite slice_len; lia|]. split.
    + rewrite field_slice by lia. rewrite slice_len by lia. lia.
    + rewrite field_slice by lia. exact Hlast.
  - intros data o vcn data' l _ _ _ _ Hch _ IH _ _. apply IH; eauto. pose proof (Hc _ _ Hch) as Hb. pose proof (field4_bound data' 24 Hb). lia.
Qed.


Lemma plain_self e : plain_entry (ie_slice e) -> ie_new (ie_slice e) (ie_position e) = Ok e.
Proof.
  destruct e as [s p]. cbn [ie_slice ie_position]. intros (Hb & H16 & Hl & _). unfold ie_new, ie_length, rd_u16. cbn [ie_slice].
  replace (zlen s <? 16) with false by lia. rewrite rd_in by lia. cbn [rbind]. rewrite Hl. replace (zlen s <? zlen s) with false by lia.
  unfold idx_range. rewrite get_range_in by lia. cbn [rbind]. now rewrite slice_all by lia.
Qed.

(** What a returned entry gives. *)
Definition entry_gives (nt : ntfs) (e : ientry) (x : dirent) : Prop :=
  (forall d, ie_to_file nt e d = ntfs_file nt (de_target x) d) /\
  exists key, ie_key fn_from_slice e = Some (Ok key) /\ fn_is_directory key = de_directory x /\ units (fn_name key) = de_name x.
Lemma says_gives nt e x : plain_entry (ie_slice e) -> says_entry (ie_slice e) x -> entry_gives nt e x.
Proof.
  intros Hp (Hn & Hd & Ht). pose proof (plain_self e Hp) as Enew. destruct Hp as (Hb & H16 & Hl & Hlast). split.
  - intros d. rewrite Ht. eapply entry_to_file; eauto. lia.
  - pose proof Hn as (Hk & N1 & N2 & N3 & N4). destruct (entry_accessors fn_from_slice _ _ _ Hb Enew ltac:(lia)) as (_ & _ & _ & _ & _ & _ & _ & _ & (_ & Hkey & _) & _).
    destruct Hk as (Hk1 & Hk2). rewrite Hkey by (auto; lia). fold (key_of (ie_slice e)). set (k := key_of (ie_slice e)) in *.
    assert (B : bytes_ok k) by (now apply key_bytes).
    assert (L : zlen k <= U64_MAX). { unfold k, key_of. rewrite slice_len by lia. pose proof (field2_bound (ie_slice e) 10 Hb). unfold U64_MAX, U16_MAX in *. lia. }
    pose proof (C35_file_name_bytes k (pos_add (ie_position e) 16) B L) as D. unfold fn_from_slice. destruct (file_name_exists k N1 N2 N3) as (v0 & D0).
    destruct (from_slice _ k _) as [key|y| |]; cbn in D; try tauto; [|exfalso; eapply D; eauto]. exists key. split; auto. split.
    + rewrite (dfn_directory _ _ D). now rewrite Hd.
    + rewrite (dfn_name _ _ D). symmetry. now rewrite (named_units _ _ Hn).
Qed.

Lemma Forall2_in_l {A B} (R : A -> B -> Prop) l1 l2 x : Forall2 R l1 l2 -> In x l1 -> exists y, In y l2 /\ R x y.
Proof. induction 1; intros []; [subst; eexists; split; [now left|auto]|]. destruct IHForall2 as (z & H1' & H2'); auto. exists z. split; [now right|auto]. Qed.
Lemma Forall2_in_r {A B} (R : A -> B -> Prop) l1 l2 y : Forall2 R l1 l2 -> In y l2 -> exists x, In x l1 /\ R x y.
Proof. induction 1; intros []; [subst; eexists; split; [now left|auto]|]. destruct IHForall2 as (z & H1' & H2'); auto. exists z. split; [now right|auto]. Qed.

(** The attributes of one type. *)
Lemma of_type_split {A} data ty (R : Z -> A -> Prop) l1 o l2 l : of_type data ty R (l1 ++ o :: l2) l -> attr_type_at data o = ty ->
  exists k1 x k2, l = k1 ++ x :: k2 /\ of_type data ty R l1 k1 /\ R o x.
Proof.
  revert l. induction l1 as [|a l1 IH]; intros l H Ht; inversion H; subst.
  - tauto.
  - exists [], x, l0. split; auto. split; [constructor|auto].
  - destruct (IH _ H4) as (k1 & x & k2 & -> & H5 & H6); auto. exists k1, x, k2. split; auto. split; auto. now constructor.
  - destruct (IH _ H5) as (k1 & y & k2 & -> & H6 & H7); auto. exists (x :: k1), y, k2. split; auto. split; auto. now constructor.
Qed.
Lemma of_type_Forall {A} data ty (R : Z -> A -> Prop) (P : Z -> Prop) (Q : A -> Prop) offs l : of_type data ty R offs l -> Forall P offs ->
  (forall o x, attr_type_at data o = ty -> R o x -> P o -> Q x) -> Forall Q l.
Proof. induction 1; intros Hf HQ; inversion Hf; subst; auto. constructor; eauto. Qed.
Lemma of_type_in {A} data ty (R : Z -> A -> Prop) offs l o : of_type data ty R offs l -> In o offs -> attr_type_at data o = ty -> exists x, In x l /\ R o x.
Proof.
  induction 1; intros Hi Ht; [easy|..].
  - destruct Hi as [->|Hi]; [tauto|auto].
  - destruct Hi as [->|Hi]; [exists x; split; [now left|auto]|]. destruct IHof_type as (y & Hy & Hr); auto. exists y. split; [now right|auto].
Qed.
Lemma first_unique {A} (P Q : A -> Prop) l a1 x b1 a2 y b2 : (forall z, ~ (P z /\ Q z)) -> l = a1 ++ x :: b1 -> Forall Q a1 -> P x ->
  l = a2 ++ y :: b2 -> Forall Q a2 -> P y -> x = y.
Proof.
  intros Hx -> Ha1 Px E Ha2 Py. revert a2 E Ha2. induction a1 as [|z a1 IH]; intros [|w a2] E Ha2; cbn in E.
  - now injection E.
  - injection E as -> _. apply Forall_inv in Ha2. exfalso. apply (Hx w); auto.
  - injection E as -> _. apply Forall_inv in Ha1. exfalso. apply (Hx y); auto.
  - injection E as _ E. apply (IH (Forall_inv_tail Ha1) a2 E (Forall_inv_tail Ha2)).
Qed.
Lemma first_of_unique {A} (P : A -> Prop) l x y : first_of P l x -> first_of P l y -> x = y.
Proof.
  intros (a1 & b1 & E1 & P1 & F1) (a2 & b2 & E2 & P2 & F2). eapply (first_unique P (fun z => ~ P z)); eauto. intros z. tauto.
Qed.
Lemma first_none {A} (P : A -> Prop) l x : first_of P l x -> none_of P l -> False.
Proof. intros (a1 & b1 & -> & P1 & F1) H. unfold none_of in H. rewrite Forall_forall in H. now apply (H x (in_elt _ _ _)). Qed.

(** ** The volume *)
Section Vol.
  Context (img : list Z) (v : volume) (nt : ntfs) (mp : Z) (mdata : list Z).
  Context (SV : stored_volume img v) (Hcs : cluster_size nt = v_cluster v) (Hfr : file_record_size nt = v_record v) (Hmp : mft_position nt = Some mp)
    (Hma : mft_at img mp (v_record v) mdata (v_mft v)).
  Let gd := good img true.

  Lemma file_at n data : numbered_record img v n data -> exists p, placed_record img v n p data /\ forall d, gd d -> exists d',
    ntfs_file nt n d = (d', Ok (mkFile (mkRecord data (Some p)) n)) /\ gd d'.
  Proof.
    intros Hn0. pose proof Hn0 as (Hn & Hm & Hone & Hcl & Hst & Hok). pose proof SV as [Hb _ Hrs Hv _ _]. pose proof (ntfs_file_one_extent img nt mp mdata (v_mft v)) as K.
    rewrite Hcs, Hfr in K.
    assert (Hall : forall d, gd d -> exists p, snd (ntfs_file nt n d) = Ok (mkFile (mkRecord data (Some p)) n) /\ disk_position (v_cluster v) (v_mft v) (n * v_record v) = Some p).
    { intros d (Hi & Hf). apply (K d n data); auto. }
    destruct (one_extent_slice _ _ _ _ _ Hv Hone) as (p & Ed & _); [nia|].
    exists p. split; [split; auto|]. intros d Hg. destruct (Hall d Hg) as (p' & E & Ed'). rewrite Ed in Ed'. injection Ed' as <-. pose proof (ntfs_file_evolves nt n d) as Ev.
    destruct (ntfs_file nt n d) as [d' r]. cbn [fst snd] in *. subst r. exists d'. split; auto.
    destruct Hg as (Hi & Hf). split; [destruct Ev; congruence|]. intros _. eapply evolves_faultless; eauto.
  Qed.

  Definition file_is (n : Z) (o : object) (f : file) : Prop :=
    exists data p, f = mkFile (mkRecord data (Some p)) n /\ placed_record img v n p data /\ (describes_file img v data o \/ describes_listed img v n p data o).
  Lemma file_of n o : v_object v n = Some o -> exists f, file_is n o f /\ forall d, gd d -> exists d', ntfs_file nt n d = (d', Ok f) /\ gd d'.
  Proof.
    intros H. destruct (sv_objects _ _ SV n o H) as (data & Hr & Hd). destruct (file_at n data Hr) as (p & Hpr & Hp).
    exists (mkFile (mkRecord data (Some p)) n). split; [|auto]. exists data, p. split; auto. split; auto. destruct Hd as [Hd|(q & Hq & Hd)]; [now left|right].
    assert (q = p) as -> by (destruct Hpr as (_ & E1), Hq as (_ & E2); congruence). exact Hd.
  Qed.
  Lemma numbered_basic n data : numbered_record img v n data -> bytes_ok data /\ 32 <= zlen data.
  Proof.
    intros (Hn & Hm & Hone & Hcl & Hst & Hok). pose proof SV as [Hb _ Hrs Hv _ _].
    assert (Bc : bytes_ok (slice (concat (map (extent_bytes (v_cluster v) img) (v_mft v))) (n * v_record v) (n * v_record v + v_record v))).
    { apply bytes_ok_slice. pose proof (bytes_ok_content (v_cluster v) img (v_mft v) (zlen (concat (map (extent_bytes (v_cluster v) img) (v_mft v)))) Hb) as X.
      unfold file_content in X. rewrite ztake_all in X by lia. exact X. }
    split; [eapply stored_bytes_ok; eauto|].
    destruct (one_extent_slice _ _ _ _ _ Hv Hone) as (q & _ & Hq0 & Hq & Hs & _); [nia|].
    rewrite (st_len _ _ Hst), <- Hs, slice_len by lia. lia.
  Qed.
  Lemma file_is_basic n o f : file_is n o f -> bytes_ok (f_data f) /\ 32 <= zlen (f_data f) /\ f_number f = n.
  Proof. intros (data & p & -> & (Hr & _) & _). cbn. destruct (numbered_basic n data Hr). auto. Qed.

  (** The file has an attribute list: the same, with the parameters of this volume. *)
  Lemma listed_here n p data o : describes_listed img v n p data o -> exists before lo after bs offs e vs,
    has_list img v n p data nt before lo after bs offs e vs /\
    let views := map VBase before ++ vs ++ map VBase after in
    Forall (at_view data (fun data o => type_known (attr_type_at data o))) views /\
    of_type_listed data 48 (fun w x => at_view data (fun data o => says_link data o x) w) views (ob_links o) /\
    of_type_listed data 128 (fun w x => at_view data (fun data o => exists bs, attr_name_at data o bs /\ utf16 bs (fst x)) w /\
                                         view_content img nt (v_mft v) data bs e w (snd x)) views (ob_streams o) /\
    match ob_entries o with
    | Some l => exists root alloc es, listed_directory img nt (v_mft v) (mkFile (mkRecord data (Some p)) n) bs e views root alloc /\
                  index_listing (v_cluster v) root alloc es /\
                  Forall2 says_entry es l /\ names_sorted (fun a b => lex_lt (upper (v_upper v) a) (upper (v_upper v) b)) es
    | None => Z.testbit (field 2 data 22) 1 = false
    end.
  Proof.
    intros (nt0 & before & lo & after & bs & offs & e & vs & Hl & _ & H1 & H2 & H3 & H4). exists before, lo, after, bs, offs, e, vs.
    pose proof Hl as [E1 E2 _]. assert (Ec : cluster_size nt = cluster_size nt0) by congruence. assert (Er : file_record_size nt = file_record_size nt0) by congruence.
    split; [eapply has_list_here; eauto|]. cbv zeta in *. split; auto. split; auto. split.
    - eapply of_type_listed_impl; [|exact H3]. cbv beta. intros w x (K1 & K2). split; auto. eapply view_content_ext; eauto.
    - destruct (ob_entries o) as [l|]; auto. destruct H4 as (root & alloc & es & K & H4). exists root, alloc, es. split; auto. eapply listed_directory_ext; eauto.
  Qed.

  (** *** Names *)
  Lemma name_of n o f ns parent d : file_is n o f -> gd d -> exists N d' r, gd d' /\ (forall fuel, (N <= fuel)%nat -> file_name_of fuel nt f ns parent d = (d', Ok r)) /\
    match r with
    | Some fn => exists x, first_of (link_wanted ns parent) (ob_links o) x /\ units (fn_name fn) = l_name x
    | None => none_of (link_wanted ns parent) (ob_links o)
    end.
  Proof.
    intros Hfi Hg. destruct (file_is_basic _ _ _ Hfi) as (Hb & Hl & _). pose proof Hfi as (data & p & Ef & _ & [(offs & W & Hno & Hk & Hlinks & _)|Hd]).
    2: { destruct (listed_here _ _ _ _ Hd) as (before & lo & after & bs & offs & e & vs & [_ _ Hff] & Hk & Hlinks & _). rewrite <- Ef in Hff.
      assert (Ed : data = f_data f) by (rewrite Ef; reflexivity). rewrite Ed in Hk, Hlinks.
      exact (listed_name img nt (v_mft v) f before lo after bs offs e vs (ob_links o) ns parent d Hff Hk Hlinks Hg). }
    assert (Ed : data = f_data f) by (rewrite Ef; reflexivity). rewrite Ed in *. clear Ed.
    assert (Hres : Forall (fun o => attr_type_at (f_data f) o = 48 -> attr_resident_at (f_data f) o /\ o + 22 <= zlen (f_data f)) offs).
    { apply Forall_forall. intros x Hx Ht. destruct (of_type_in _ _ _ _ _ _ Hlinks Hx Ht) as (y & _ & (H1 & H2 & _)). auto. }
    destruct (file_name_spec nt f ns parent offs true Hb ltac:(lia) W Hno Hres (S (length offs)) d ltac:(lia)) as (r & E & Hr).
    assert (Hfuel : forall fuel, (S (length offs) <= fuel)%nat -> forall r0, r = Ok r0 -> file_name_of fuel nt f ns parent d = (d, Ok r0)).
    { intros fuel Hfu r0 ->. rewrite (file_name_of_fuel _ _ Hfu); rewrite E; [reflexivity|discriminate]. }
    assert (Hnot : forall a k, of_type (f_data f) 48 (says_link (f_data f)) a k -> Forall (not_name (f_data f) ns parent) a -> none_of (link_wanted ns parent) k).
    { intros a k Ho Hf. eapply (of_type_Forall _ _ _ _ _ _ _ Ho Hf). intros x y Ht (_ & _ & bs & Hv & S1 & S2 & S3 & S4 & S5 & S6) (_ & [K|(bs' & fn & Hv' & Hdec & K)]); [tauto|].
      assert (bs' = bs) by (destruct Hv as (_ & ->), Hv' as (_ & ->); reflexivity). subst bs'. unfold link_wanted. now rewrite S4, S5. }
    assert (Hwell : forall x, In x offs -> ~ malformed_name (f_data f) x).
    { intros x Hx [Hm|(Hm & Hn)]; [rewrite Forall_forall in Hk; apply Hm, Hk, Hx|]. destruct (of_type_in _ _ _ _ _ _ Hlinks Hx Hm) as (y & _ & (_ & _ & bs & Hv & S1 & S2 & S3 & _)).
      destruct (file_name_exists bs S1 S2 S3) as (fn & D). apply (Hn bs fn). auto. }
    exists (S (length offs)), d. destruct r as [[fn|]|y| |]; try contradiction.
    - exists (Some fn). split; auto. split; auto. destruct Hr as (l1 & x & l2 & -> & Hf1 & (Ht & bs & Hv & Hdec & Hw1 & Hw2)).
      destruct (of_type_split _ _ _ _ _ _ _ Hlinks Ht) as (k1 & y & k2 & -> & Ho1 & (_ & _ & bs' & Hv' & S1 & S2 & S3 & S4 & S5 & S6)).
      assert (bs' = bs) by (destruct Hv as (_ & ->), Hv' as (_ & ->); reflexivity). subst bs'.
      exists y. split.
      + exists k1, k2. split; auto. split; [unfold link_wanted; now rewrite S4, S5|]. exact (Hnot _ _ Ho1 Hf1).
      + rewrite (dfn_name _ _ Hdec). apply units_utf16; auto. eapply utf16_even; eauto.
    - exists None. split; auto. split; auto. destruct Hr as (_ & Hr). exact (Hnot _ _ Hlinks Hr).
    - exfalso. destruct Hr as [(Hr & _)|(l1 & x & l2 & -> & _ & Hm)]; [discriminate|]. apply (Hwell x); auto. apply in_elt.
  Qed.

  Lemma wanted_none {A} (x : A) : wanted None x. Proof. intros y. discriminate. Qed.
  Lemma wanted_some {A} (x y : A) : wanted (Some y) x <-> x = y.
  Proof. split; [intros H; now apply H|intros -> z [= <-]; reflexivity]. Qed.
  Lemma link_wanted_ns parent ns x : link_wanted (Some ns) (Some parent) x <-> in_namespace parent ns x.
  Proof. unfold link_wanted, in_namespace. rewrite !wanted_some. tauto. Qed.
  Lemma link_wanted_any parent x : link_wanted None (Some parent) x <-> l_parent x = parent.
  Proof. unfold link_wanted. rewrite wanted_some. split; [tauto|]. split; auto. apply wanted_none. Qed.
  Lemma first_of_iff {A} (P Q : A -> Prop) l x : (forall y, P y <-> Q y) -> first_of P l x -> first_of Q l x.
  Proof. intros H (a & b & E & Hp & Hf). exists a, b. split; auto. split; [now apply H|]. eapply Forall_impl; [|exact Hf]. cbn. intros y Hy. now rewrite <- H. Qed.
  Lemma none_of_iff {A} (P Q : A -> Prop) l : (forall y, P y <-> Q y) -> none_of P l -> none_of Q l.
  Proof. intros H Hf. eapply Forall_impl; [|exact Hf]. cbn. intros y Hy. now rewrite <- H. Qed.

  Lemma best_name n o f parent d : file_is n o f -> gd d -> exists N d' y r, gd d' /\ shown_name (ob_links o) parent r /\
    (forall fuel, (N <= fuel)%nat -> best_file_name fuel nt f parent d = (d', Ok y)) /\
    match r, y with Some x, Done fn => units (fn_name fn) = l_name x | None, Said NoFileName => True | _, _ => False end.
  Proof.
    intros Hfi Hg. destruct (name_of n o f (Some 1) (Some parent) d Hfi Hg) as (N1 & d1 & r1 & G1 & E1 & K1).
    destruct (name_of n o f (Some 3) (Some parent) d1 Hfi G1) as (N2 & d2 & r2 & G2 & E2 & K2).
    destruct (name_of n o f None (Some parent) d2 Hfi G2) as (N3 & d3 & r3 & G3 & E3 & K3).
    exists (N1 + N2 + N3)%nat. unfold best_file_name, first_file_name. destruct r1 as [fn|].
    { destruct K1 as (x & Hx & Hn). exists d1, (Done fn), (Some x). split; auto. split; [constructor; eapply first_of_iff; [|exact Hx]; intros; apply link_wanted_ns|].
      split; auto. intros fuel Hf. unfold mbind at 1. rewrite E1 by lia. reflexivity. }
    destruct r2 as [fn|].
    { destruct K2 as (x & Hx & Hn). exists d2, (Done fn), (Some x). split; auto. split; [apply sn_both|split; auto].
      - eapply none_of_iff; [|exact K1]. intros. apply link_wanted_ns.
      - eapply first_of_iff; [|exact Hx]. intros. apply link_wanted_ns.
      - intros fuel Hf. unfold mbind at 1. rewrite E1 by lia. unfold mbind at 1. rewrite E2 by lia. reflexivity. }
    destruct r3 as [fn|].
    { destruct K3 as (x & Hx & Hn). exists d3, (Done fn), (Some x). split; auto. split; [apply sn_any|split; auto].
      - eapply none_of_iff; [|exact K1]. intros. apply link_wanted_ns.
      - eapply none_of_iff; [|exact K2]. intros. apply link_wanted_ns.
      - eapply first_of_iff; [|exact Hx]. intros. apply link_wanted_any.
      - intros fuel Hf. unfold mbind at 1. rewrite E1 by lia. unfold mbind at 1. rewrite E2 by lia. unfold mbind at 1. rewrite E3 by lia. reflexivity. }
    exists d3, (Said NoFileName), None. split; auto. split; [constructor; eapply none_of_iff; [|exact K3]; intros; apply link_wanted_any|]. split; auto.
    intros fuel Hf. unfold mbind at 1. rewrite E1 by lia. unfold mbind at 1. rewrite E2 by lia. unfold mbind at 1. rewrite E3 by lia. reflexivity.
  Qed.

  Context (Hup : upcase_table nt = Some (v_upper v)) (Hul : zlen (v_upper v) = 65536).

  (** *** Streams *)
  Lemma stream_of n o f stream d : file_is n o f -> Forall unit_ok stream -> gd d -> exists N d1, gd d1 /\
    ((none_of (stream_matches v stream) (ob_streams o) /\ forall fuel, (N <= fuel)%nat -> file_data fuel nt f stream d = (d1, Ok None)) \/
     (exists x i a, first_of (stream_matches v stream) (ob_streams o) x /\
       (forall fuel, (N <= fuel)%nat -> file_data fuel nt f stream d = (d1, Ok (Some i))) /\ item_to_attribute i = Ok a /\ reads_to_end img nt a (snd x))).
  Proof.
    intros Hfi Hu Hg. destruct (file_is_basic _ _ _ Hfi) as (Hb & Hl & _). pose proof Hfi as (data & p & Ef & _ & Hcase).
    set (t := v_upper v) in *. assert (Hin : stream = [] \/ upcase_table nt = Some t /\ zlen t = 65536 /\ Forall unit_ok stream) by auto.
    assert (Hsm : forall x, stream_matches v stream x <-> same_name t stream (fst x)) by (intros x; unfold stream_matches, same_name; destruct stream; tauto).
    destruct Hcase as [(offs & W & Hno & Hk & _ & Hst & _)|Hd].
    2: { destruct (listed_here _ _ _ _ Hd) as (before & lo & after & bs & offs & e & vs & [_ _ Hff] & Hk & _ & Hst & _). rewrite <- Ef in Hff.
      assert (Ed : data = f_data f) by (rewrite Ef; reflexivity). rewrite Ed in Hk, Hst.
      destruct (listed_stream img nt (v_mft v) f before lo after bs offs e vs (ob_streams o) t stream d Hff Hk Hst Hin Hg) as (N & d1 & G1 & [(H1 & H2)|(x & i & a & H1 & H2 & H3 & H4)]).
      - exists N, d1. split; [exact G1|]. left. split; [|exact H2]. eapply none_of_iff; [|exact H1]. intros y. symmetry. apply Hsm.
      - exists N, d1. split; [exact G1|]. right. exists x, i, a. split; [|auto]. eapply first_of_iff; [|exact H1]. intros y. symmetry. apply Hsm. }
    assert (Ed : data = f_data f) by (rewrite Ef; reflexivity). rewrite Ed in *. clear Ed.
    destruct (file_data_spec nt f t stream offs true Hb ltac:(lia) W Hno Hin (S (length offs)) d ltac:(lia)) as (r0 & E0 & Hr0).
    assert (Hfuel : forall fuel, (S (length offs) <= fuel)%nat -> forall r, r0 = Ok r -> file_data fuel nt f stream d = (d, Ok r)).
    { intros fuel Hfu r ->. rewrite (file_data_fuel _ _ Hfu); rewrite E0; [reflexivity|discriminate]. }
    assert (Hnot : forall a k, of_type (f_data f) 128 (says_stream (v_cluster v) img (f_data f)) a k -> Forall (not_stream (f_data f) t stream) a -> none_of (stream_matches v stream) k).
    { intros a k Ho Hf. eapply (of_type_Forall _ _ _ _ _ _ _ Ho Hf). intros x y Ht ((bs & Hn & Hu16) & _) (_ & [K|(bs' & us & Hn' & Hu' & K)]); [tauto|].
      pose proof (name_at_fun _ _ _ _ Hn Hn'); subst bs'. pose proof (utf16_fun _ _ _ Hu16 Hu'); subst us. now rewrite Hsm. }
    assert (Hwell : forall x, In x offs -> ~ malformed_stream (f_data f) x).
    { intros x Hx [Hm|(Hm & Hn)]; [rewrite Forall_forall in Hk; apply Hm, Hk, Hx|]. destruct (of_type_in _ _ _ _ _ _ Hst Hx Hm) as (y & _ & ((bs & Hn' & _) & _)). now apply (Hn bs). }
    exists (S (length offs)), d. split; auto. destruct r0 as [[i|]|y| |]; try contradiction.
    - right. destruct Hr0 as (l1 & x & l2 & Eo & Hf1 & Hs & ->).
      assert (Hs2 := Hst). rewrite Eo in Hs2. destruct (of_type_split _ _ _ _ _ _ _ Hs2 (proj1 Hs)) as (k1 & y & k2 & El & Ho1 & Hy).
      assert (Hs0 : 0 <= field 2 (f_data f) 20) by (apply field_nonneg; auto).
      assert (W' := W). rewrite Eo in W'. destruct (walk_fits f _ _ _ _ _ W' Hs0) as (Ho0 & Hfit).
      destruct Hy as ((bs & Hn & Hu16) & Hc). exists y, (mkItem f None x None), (mkAttr f x None). split; [|split; [|split]]; auto.
      + exists k1, k2. split; auto. split; [|exact (Hnot _ _ Ho1 Hf1)]. apply Hsm. destruct Hs as (_ & bs' & us & Hn' & Hu' & Hsame).
        pose proof (name_at_fun _ _ _ _ Hn Hn'); subst bs'. pose proof (utf16_fun _ _ _ Hu16 Hu'); subst us. auto.
      + unfold item_to_attribute. cbn [ai_value_file ai_file ai_offset ai_entries]. exact (proj1 (attr_new_spec f x None Ho0) Hfit).
      + apply simple_to_end; auto. rewrite Hcs. exact Hc.
    - left. destruct Hr0 as (_ & Hr0). split; [exact (Hnot _ _ Hst Hr0)|]. intros fuel Hfu. now apply Hfuel.
    - exfalso. destruct Hr0 as [(H & _)|(l1 & x & l2 & E & _ & Hm)]; [discriminate|]. apply (Hwell x); auto. rewrite E. apply in_elt.
  Qed.

  (** *** Directories *)
  Lemma dir_loop_runs ix sub k st d es st' d' : runs sub k st d es st' d' -> forall g, st' = mkIEs [g] [] -> rg_end g <= rg_start g ->
    forall xs, Forall2 (entry_gives nt) es xs -> forall fuel kk acc, (k < fuel)%nat -> (length es < kk)%nat ->
      (forall vcn d, index_subnode fuel nt ix vcn d = sub vcn d) ->
      dir_loop fuel kk nt ix st acc d = (d', (acc ++ map (fun x => LEntry (de_directory x) (de_name x)) xs, Ok tt)).
  Proof.
    intros Hr g Hg Hex. revert k st d Hr. induction es as [|e es IH]; intros k st d Hr xs Hxs fuel kk acc Hf Hk Hsub.
    - inversion Hxs; subst. destruct kk as [|kk]; [lia|]. cbn [dir_loop]. unfold entries_next. rewrite (entries_loop_ext _ sub Hsub).
      rewrite (runs_silent _ _ _ _ _ _ Hr fuel ltac:(lia)). destruct (fuel - k)%nat as [|j] eqn:Ej; [lia|]. cbn [entries_loop es_iters es_following].
      unfold ranges_next at 1. replace (rg_end g <=? rg_start g) with true by lia. cbn [map]. now rewrite app_nil_r.
    - inversion Hxs as [|? x ? xs' Hx Hxs']; subst. destruct kk as [|kk]; [lia|]. cbn [dir_loop]. unfold entries_next. rewrite (entries_loop_ext _ sub Hsub).
      destruct (runs_first _ _ _ _ _ _ _ _ Hr) as (k2 & st1 & d1 & Hk2 & Hr2 & E). rewrite (E fuel ltac:(lia)).
      destruct Hx as (_ & key & -> & -> & ->). rewrite (IH _ _ _ Hr2 xs' Hxs') by (auto; cbn [length] in *; lia). cbn [map]. now rewrite <- app_assoc.
  Qed.

  Lemma directory_index_const f offs : bytes_ok (f_data f) -> 22 <= zlen (f_data f) -> attr_walk (f_data f) (field 2 (f_data f) 20) offs true ->
    no_attribute_list (f_data f) offs -> exists r, forall fuel d, (length offs < fuel)%nat -> directory_index fuel nt f d = (d, r).
  Proof.
    intros Hb Hl W Hno. exists (snd (directory_index (S (length offs)) nt f (mkDev [] 0 [] []))). intros fuel d Hf.
    pose proof (find_attribute_spec nt f TY_IndexRoot (Some DIRECTORY_INDEX_NAME) offs true Hb Hl W Hno) as F1.
    pose proof (find_attribute_spec nt f TY_IndexAllocation (Some DIRECTORY_INDEX_NAME) offs true Hb Hl W Hno) as F2.
    unfold directory_index, mbind, mlift, mret. destruct (f_is_directory f) as [[|]|x| |]; cbn [negb]; try reflexivity.
    rewrite !F1 by lia. destruct (rbind _ _) as [i|x| |]; try reflexivity. destruct (item_to_attribute i) as [a|x| |]; try reflexivity.
    destruct (attr_index_root a) as [ir|x| |]; try reflexivity. destruct (ir_is_large ir) as [[|]|x| |]; try reflexivity.
    rewrite !F2 by lia. destruct (rbind _ _) as [i2|x| |]; reflexivity.
  Qed.

  Definition found_entry (l : list dirent) (name : list Z) (r : item ientry) : Prop :=
    match r with
    | Some (Ok e) => exists x, In x l /\ upper (v_upper v) (de_name x) = upper (v_upper v) name /\ entry_gives nt e x
    | None => forall x, In x l -> upper (v_upper v) (de_name x) <> upper (v_upper v) name
    | _ => False
    end.
  Lemma dir_loop_iterate fuel ix : forall es xs st d acc kk, Forall2 (entry_gives nt) es xs -> (length es < kk)%nat ->
    iterate (with_dev (entries_next fuel nt ix)) (length es + 1) (st, d) = map (fun e => Some (Ok e)) es ++ [None] ->
    snd (dir_loop fuel kk nt ix st acc d) = (acc ++ map (fun x => LEntry (de_directory x) (de_name x)) xs, Ok tt).
  Proof.
    induction es as [|e es IH]; intros xs st d acc kk F Hk E; inversion F as [|? x ? xs' Hx F']; subst; (destruct kk as [|kk]; [cbn in Hk; lia|]); cbn [length Nat.add iterate map app] in E; cbn [dir_loop];
      unfold with_dev at 1 in E; cbn [fst snd] in E; destruct (entries_next fuel nt ix st d) as [d1 [st1 y]].
    - injection E as ->. cbn [map snd]. now rewrite app_nil_r.
    - injection E as -> E. destruct Hx as (_ & key & -> & -> & ->). rewrite (IH xs' st1 d1 _ kk F' ltac:(cbn in Hk; lia) E). cbn [map]. now rewrite <- app_assoc.
  Qed.
  Lemma says_all es : forall xs, Forall2 says_entry (map ie_slice es) xs -> Forall plain_entry (map ie_slice es) -> Forall2 (entry_gives nt) es xs.
  Proof.
    induction es as [|e es IH]; intros xs F Hp; inversion F; subst; constructor; [|apply IH; auto; exact (Forall_inv_tail Hp)]. apply says_gives; auto. exact (Forall_inv Hp).
  Qed.
  Definition dir_lines (l : list dirent) : list line := map (fun x => LEntry (de_directory x) (de_name x)) l.
  Lemma dir_facts n o f l d : file_is n o f -> ob_entries o = Some l -> gd d -> exists N d1 ix, gd d1 /\
    (forall fuel, (N <= fuel)%nat -> directory_index fuel nt f d = (d1, Ok ix)) /\
    (forall name d2, Forall unit_ok name -> gd d2 -> exists N d' r, gd d' /\ found_entry l name r /\ forall fuel, (N <= fuel)%nat -> file_name_find fuel nt ix name d2 = (d', r)) /\
    (forall d2, gd d2 -> exists N d', gd d' /\ forall fuel, (N <= fuel)%nat -> dir_loop fuel fuel nt ix (index_entries ix) [] d2 = (d', (dir_lines l, Ok tt))).
  Proof.
    intros Hfi He Hg. destruct (file_is_basic _ _ _ Hfi) as (Hb & Hl & _). pose proof Hfi as (data & p & Ef & _ & [(offs & W & Hno & Hk & _ & _ & Hent)|Hd]).
    2: { destruct (listed_here _ _ _ _ Hd) as (before & lo & after & bs & offs & e & vs & [_ _ Hff] & _ & _ & _ & Hent). rewrite <- Ef in Hff. rewrite He in Hent.
      destruct Hent as (root & alloc & es & D & L & F2 & Hsort). rewrite <- Ef in D. rewrite <- Hcs in L. set (views := map VBase before ++ vs ++ map VBase after) in *.
      set (N := S (length offs + length views + 3)). pose proof Hg as (Hi & Hf). specialize (Hf eq_refl).
      destruct (listed_directory_listing img nt (v_mft v) f before lo after true bs offs e vs root alloc es N d Hff D L ltac:(unfold N, views; lia) Hf Hi) as (d1 & ix & E & Hi1 & Hf1 & Hlist).
      assert (Hpl : Forall plain_entry es).
      { eapply (listing_plain (index_child (cluster_size nt) root alloc)); [|exact L| |lia].
        - intros vcn dat Hc. exact (proj1 (ld_child_ok _ _ _ _ _ _ _ _ _ _ _ _ _ _ Hff D vcn dat Hc)).
        - apply bytes_ok_slice. exact (ld_root_bytes _ _ _ _ _ _ _ _ _ _ _ _ _ _ Hff D). }
      assert (Hnamed : Forall (fun e => exists us, named e us) es).
      { apply Forall_forall. intros x Hin. destruct (Forall2_in_l _ _ _ _ F2 Hin) as (y & _ & (Hn & _)). eauto. }
      exists N, d1, ix. split; [split; auto|]. split; [intros fuel Hfu; rewrite (directory_index_fuel _ _ Hfu); rewrite E; [reflexivity|discriminate]|]. split.
      - intros name d2 Hn Hg2.
        destruct (listed_directory_names img nt (v_mft v) f before lo after true bs offs e vs root alloc es N d (v_upper v) name Hff D L ltac:(unfold N, views; lia) Hf Hi Hup Hul Hn Hnamed Hsort)
          as (d1' & ix' & E' & _ & _ & Hfind). rewrite E in E'. injection E' as <- <-.
        destruct (Hfind d2 (proj2 Hg2 eq_refl) (proj1 Hg2)) as (M & d' & r & _ & H1 & H2). exists M, d', r.
        pose proof (file_name_find_good img M nt ix name d2 Hg2) as G. rewrite (H1 M (le_n _)) in G. split; auto. split; auto. unfold found_entry.
        destruct r as [[x|x| |]|]; try contradiction.
        + destruct H2 as (Hin & us & Hus & Hup'). destruct (Forall2_in_l _ _ _ _ F2 Hin) as (y & Hy & Hs). exists y. split; auto. rewrite Forall_forall in Hpl. split; [|apply says_gives; auto].
          assert (us = de_name y); [|congruence]. rewrite (named_units _ _ Hus). now rewrite (named_units _ _ (proj1 Hs)).
        + intros y Hy. destruct (Forall2_in_r _ _ _ _ F2 Hy) as (x & Hin & Hs). apply (H2 x _ Hin (proj1 Hs)).
      - intros d2 Hg2. destruct (Hlist d2 (proj2 Hg2 eq_refl) (proj1 Hg2)) as (ies & M & <- & HM). set (K := (M + S (length ies))%nat).
        assert (Ed : snd (dir_loop K K nt ix (index_entries ix) [] d2) = (dir_lines l, Ok tt)).
        { apply (dir_loop_iterate K ix ies l _ _ [] K); [now apply says_all|unfold K; lia|]. apply (HM K 1%nat). unfold K. lia. }
        exists K, (fst (dir_loop K K nt ix (index_entries ix) [] d2)). split; [now apply dir_loop_good|]. intros fuel Hfu. rewrite (dir_loop_more K fuel Hfu nt ix _ d2 _ _ Ed).
        destruct (dir_loop K K nt ix (index_entries ix) [] d2) as [d3 y]. cbn [fst snd] in *. now subst y. }
    assert (Ed : data = f_data f) by (rewrite Ef; reflexivity). rewrite Ed in *. clear Ed. rewrite He in Hent.
    destruct Hent as (root & alloc & es & D & L & F2 & Hsort). pose proof SV as [Hib _ _ Hve _ _].
    assert (Hcs1 : 1 <= cluster_size nt) by (rewrite Hcs; apply Hve). rewrite <- Hcs in D, L.
    destruct (directory_index_const f offs Hb ltac:(lia) W Hno) as (r & Hr).
    destruct (directory_index_ok nt img f offs true root alloc Hb ltac:(lia) W Hno D (S (length offs)) (mkDev [] 0 [] []) ltac:(lia)) as (ix & E & Hix).
    rewrite Hr in E by lia. injection E as ->. exists (S (length offs)), d, ix. split; auto. split; [intros; apply Hr; lia|]. clear d Hg.
    assert (Hpl : Forall plain_entry es).
    { eapply (listing_plain (index_child (cluster_size nt) root alloc)); [|exact L| |lia].
      - intros vcn dat Hc. apply (dir_child_ok nt img f offs root alloc Hib D vcn dat Hc).
      - apply bytes_ok_slice. exact (root_bytes_ok nt img f offs true root alloc Hb ltac:(lia) W D). }
    assert (Hgive : forall e x, In (ie_slice e) es -> says_entry (ie_slice e) x -> entry_gives nt e x).
    { intros e x Hin Hs. apply says_gives; auto. rewrite Forall_forall in Hpl. auto. }
    assert (Hnamed : Forall (fun e => exists us, named e us) es).
    { apply Forall_forall. intros e Hin. destruct (Forall2_in_l _ _ _ _ F2 Hin) as (x & _ & (Hn & _)). eauto. }
    split.
    - intros name d Hn Hg.
      destruct (file_name_lookup nt img f offs true root alloc (v_upper v) name es d Hib Hb ltac:(lia) W Hcs1 D L Hup Hul Hn Hnamed Hsort ix Hix Hg) as (N & d' & r & Hg' & H1 & H2).
      exists N, d', r. split; auto. split; auto. unfold found_entry. destruct r as [[e|x| |]|]; try contradiction.
      + destruct H2 as (Hin & us & Hus & Hup'). destruct (Forall2_in_l _ _ _ _ F2 Hin) as (x & Hx & Hs). exists x. split; auto. split; [|auto].
        assert (us = de_name x); [|congruence]. rewrite (named_units _ _ Hus). now rewrite (named_units _ _ (proj1 Hs)).
      + intros x Hx. destruct (Forall2_in_r _ _ _ _ F2 Hx) as (e & Hin & Hs). apply (H2 e _ Hin (proj1 Hs)).
    - intros d Hg. pose proof Hix as (q & Hroot & _). unfold index_entries. rewrite Hroot.
      assert (Hrb : bytes_ok (root_entries root)) by (apply bytes_ok_slice; exact (root_bytes_ok nt img f offs true root alloc Hb ltac:(lia) W D)).
      destruct (proj1 (listing_runs (index_subnode 0 nt ix) gd _ (dir_child_ok nt img f offs root alloc Hib D)
        (fun vcn data d' => dir_subnode nt img f offs true root alloc Hib Hb ltac:(lia) W Hcs1 D ix 0 vcn data d' Hix)) _ _ _ _ L Hrb ltac:(lia) ltac:(lia) [] [] d q Hg)
        as (ies & k & d' & g & Hmap & Hg' & Hex & Hrun).
      exists (S (k + length ies)), d'. split; auto. intros fuel Hfu.
      rewrite (dir_loop_runs ix (index_subnode 0 nt ix) k _ d ies _ d' Hrun g eq_refl Hex l); auto; try lia.
      + clear -F2 Hmap Hgive. subst es. remember (map ie_slice ies) as es eqn:Em.
        assert (Hg : forall e x, In e ies -> says_entry (ie_slice e) x -> entry_gives nt e x) by (intros; apply Hgive; auto; subst; now apply in_map).
        clear Hgive. revert ies Em Hg. induction F2 as [|e x es xs Hs F2 IH]; intros [|i ies] Em Hg; try discriminate; constructor.
        * injection Em as -> _. apply Hg; auto. now left.
        * injection Em as _ Em. apply IH; auto. intros. apply Hg; auto. now right.
      + intros vcn d0. exact (subnode_fuel nt img f root alloc Hb ix fuel vcn d0 Hix).
  Qed.

  (** *** The shell *)
  Context (Hcl : closed v) (Hpn : plain_names v).
  (** The files of the shell are the directories on the path. *)
  Definition dir_is (n : Z) (f : file) : Prop := exists o l, v_object v n = Some o /\ ob_entries o = Some l /\ file_is n o f.
  Definition on_path (p : path) (sh : shell) : Prop :=
    sh_text sh = prompt p /\ Forall2 dir_is (map fst p ++ [5]) (sh_dirs sh) /\ Forall (fun x => snd x <> [] /\ ~ In 92 (snd x)) p.

  Lemma on_path_current p sh : on_path p sh -> exists f, current_dir sh = Ok f /\ dir_is (current p) f.
  Proof.
    intros (_ & F & _). unfold current_dir. destruct p as [|[n name] p]; inversion F; subst; cbn [current]; eauto.
  Qed.
  Lemma prompt_nonempty p : Forall (fun x : Z * list Z => snd x <> [] /\ ~ In 92 (snd x)) p -> p <> [] -> prompt p <> [].
  Proof.
    intros H Hp. destruct p as [|[n name] [|q p]]; [tauto|apply Forall_inv in H; apply H|]. cbn [prompt].
    change (prompt (q :: p) ++ [92] ++ name <> []). intros E. apply app_eq_nil in E. destruct E as (_ & E). discriminate.
  Qed.
  Lemma on_path_up p sh : on_path p sh -> on_path (tl p) (cd_up sh).
  Proof.
    intros (Ht & F & Hn). unfold cd_up. destruct p as [|[n name] p].
    - rewrite Ht. split; auto.
    - pose proof (prompt_nonempty _ Hn ltac:(discriminate)) as Hne. rewrite <- Ht in Hne. destruct (sh_text sh) as [|c s] eqn:Es; [tauto|]. rewrite <- Es in *. clear Hne Es c s.
      split; [|split].
      + cbn [sh_text tl]. rewrite Ht. pose proof (Forall_inv Hn) as (_ & H92). cbn [snd] in H92. destruct p as [|q p].
        * cbn [prompt]. now rewrite before_backslash_none.
        * change (prompt ((n, name) :: q :: p)) with (prompt (q :: p) ++ [92] ++ name). now rewrite before_backslash_some.
      + cbn [sh_dirs tl]. inversion F; subst. auto.
      + exact (Forall_inv_tail Hn).
  Qed.
  Lemma on_path_enter p sh n f name fn : on_path p sh -> dir_is n f -> name <> [] -> ~ In 92 name -> units (fn_name fn) = name -> on_path ((n, name) :: p) (cd_enter sh f fn).
  Proof.
    intros (Ht & F & Hn) Hd H1 H2 Hu. unfold cd_enter. split; [|split].
    - cbn [sh_text]. rewrite Hu, Ht. destruct p as [|q p].
      + reflexivity.
      + pose proof (prompt_nonempty _ Hn ltac:(discriminate)) as Hne. destruct (prompt (q :: p)) eqn:E; [tauto|]. rewrite <- E. rewrite <- app_assoc. reflexivity.
    - cbn [sh_dirs map app fst]. now constructor.
    - constructor; auto.
  Qed.
  Lemma target_dir n l e : entries_of v n l -> In e l -> exists o, v_object v (de_target e) = Some o /\ (de_directory e = true -> ob_entries o <> None).
  Proof. intros (o & Ho & He) Hin. exact (cl_targets _ Hcl n o l e Ho He Hin). Qed.

  (** [cd] *)
  Lemma cd_ok p sh arg d : on_path p sh -> Forall unit_ok arg -> gd d -> exists N d' sh' r p', gd d' /\ on_path p' sh' /\ answers img v p (DoCd arg) r p' /\
    forall fuel, (N <= fuel)%nat -> run_command fuel nt sh (DoCd arg) d = (d', (sh', r)).
  Proof.
    intros Hp Hu Hg. destruct arg as [|c arg].
    { exists 0%nat, d, sh, quiet, p. split; auto. split; auto. split; [constructor|]. intros fuel _. reflexivity. }
    destruct (list_eqb (c :: arg) [46; 46]) eqn:Edd.
    { assert (Harg : c :: arg = [46; 46]).
      { cbn [list_eqb] in Edd. apply andb_true_iff in Edd. destruct Edd as (E1 & E2). destruct arg as [|c2 arg]; [discriminate|]. cbn [list_eqb] in E2.
        apply andb_true_iff in E2. destruct E2 as (E2 & E3). destruct arg; [|discriminate]. f_equal; [lia|f_equal; lia]. }
      exists 0%nat, d, (cd_up sh), quiet, (tl p). split; auto. split; [now apply on_path_up|]. split; [rewrite Harg; constructor|]. intros fuel _. cbn [run_command cd]. rewrite Edd.
      reflexivity. }
    assert (Hndd : c :: arg <> [46; 46]) by (intros E; rewrite E in Edd; discriminate).
    assert (Hne : c :: arg <> []) by discriminate. set (name := c :: arg) in *.
    destruct (on_path_current p sh Hp) as (f & Ecur & (o & l & Ho & He & Hfi)). assert (Hent : entries_of v (current p) l) by (exists o; auto).
    destruct (dir_facts _ _ _ _ d Hfi He Hg) as (N1 & d0 & ix & Hg0 & Hix & Hfind & _).
    destruct (Hfind name d0 Hu Hg0) as (N2 & d1 & r & Hg1 & Hr & Hff). unfold found_entry in Hr.
    assert (Hcd : forall fuel, cd fuel nt sh name = (try dir <- current_dir sh;
        do ix <- directory_index fuel nt dir;
        fun d =>
          match file_name_find fuel nt ix name d with
          | (d1, None) => (d1, Ok (Said NoSuchFile))
          | (d1, Some (Ok e)) =>
              match ie_key fn_from_slice e with
              | None => (d1, Panic)
              | Some (Ok key) =>
                  if negb (fn_is_directory key) then (d1, Ok (Said NotADirectory))
                  else (do f <- ie_to_file nt e;
                        do name <- best_file_name fuel nt f (f_number dir);
                        match name with
                        | Done fn => mret (Done (cd_enter sh f fn))
                        | Said m => mret (Said m)
                        end) d1
              | Some (Err x) => (d1, Err x)
              | Some Panic => (d1, Panic)
              | Some OutOfFuel => (d1, OutOfFuel)
              end
          | (d1, Some (Err x)) => (d1, Err x)
          | (d1, Some Panic) => (d1, Panic)
          | (d1, Some OutOfFuel) => (d1, OutOfFuel)
          end)).
    { intros fuel. unfold cd, name in *. rewrite Edd. reflexivity. }
    destruct r as [[e|x| |]|]; try contradiction.
    - destruct Hr as (x & Hin & Hsame & (Hto & key & Ekey & Edir & Ename)).
      destruct (de_directory x) eqn:Ed.
      + destruct (target_dir _ _ _ Hent Hin) as (o' & Ho' & Hdir). destruct (file_of _ _ Ho') as (f' & Hfi' & Hopen). destruct (Hopen d1 Hg1) as (d2 & E2 & Hg2).
        destruct (file_is_basic _ _ _ Hfi) as (_ & _ & Hnum).
        destruct (best_name _ _ _ (current p) d2 Hfi' Hg2) as (N3 & d3 & y & r & Hg3 & Hshown & Hbest & Hy). destruct r as [lk|].
        * assert (Hlk : l_name lk <> [] /\ ~ In 92 (l_name lk)).
          { apply (Hpn _ _ _ Ho'). inversion Hshown as [? (a & b & E & _)|? _ (a & b & E & _)|? _ _ (a & b & E & _)|]; subst; rewrite E; apply in_elt. }
          destruct y as [fn|]; [|contradiction].
          exists (N1 + N2 + N3)%nat, d3, (cd_enter sh f' fn), quiet, ((de_target x, l_name lk) :: p). split; auto. split; [|split].
          -- apply on_path_enter; auto; try tauto. specialize (Hdir Ed). destruct (ob_entries o') as [l'|] eqn:El'; [|tauto]. exists o', l'. auto.
          -- eapply an_cd_enter; eauto.
          -- intros fuel Hfu. cbn [run_command]. rewrite Hcd. unfold mbind at 1, mlift at 1. rewrite Ecur. unfold mbind at 1. rewrite Hix by lia. rewrite Hff by lia. rewrite Ekey, Edir. cbn [negb].
             unfold mbind at 1. rewrite Hto, E2. unfold mbind. rewrite Hnum, Hbest by lia. reflexivity.
        * exists (N1 + N2 + N3)%nat, d3, sh, (says NoFileName), p. split; auto. split; auto. split; [eapply an_cd_nameless; eauto|].
          intros fuel Hfu. cbn [run_command]. rewrite Hcd. unfold mbind at 1, mlift at 1. rewrite Ecur. unfold mbind at 1. rewrite Hix by lia. rewrite Hff by lia. rewrite Ekey, Edir. cbn [negb].
          unfold mbind at 1. rewrite Hto, E2. unfold mbind. rewrite Hnum, Hbest by lia. destruct y as [fn|[]]; try contradiction. reflexivity.
      + exists (N1 + N2)%nat, d1, sh, (says NotADirectory), p. split; auto. split; auto. split; [eapply an_cd_file; eauto|].
        intros fuel Hfu. cbn [run_command]. rewrite Hcd. unfold mbind at 1, mlift at 1. rewrite Ecur. unfold mbind at 1. rewrite Hix by lia. rewrite Hff by lia. rewrite Ekey, Edir. cbn [negb].
        reflexivity.
    - exists (N1 + N2)%nat, d1, sh, (says NoSuchFile), p. split; auto. split; auto. split; [eapply an_cd_missing; eauto|].
      intros fuel Hfu. cbn [run_command]. rewrite Hcd. unfold mbind at 1, mlift at 1. rewrite Ecur. unfold mbind at 1. rewrite Hix by lia. rewrite Hff by lia.
      reflexivity.
  Qed.

  (** [dir] *)
  Lemma dir_ok p sh d : on_path p sh -> gd d -> exists N d' r, gd d' /\ answers img v p DoDir r p /\
    forall fuel, (N <= fuel)%nat -> run_command fuel nt sh DoDir d = (d', (sh, r)).
  Proof.
    intros Hp Hg. destruct (on_path_current p sh Hp) as (f & Ecur & (o & l & Ho & He & Hfi)). assert (Hent : entries_of v (current p) l) by (exists o; auto).
    destruct (dir_facts _ _ _ _ d Hfi He Hg) as (N1 & d0 & ix & Hg0 & Hix & _ & Hlist). destruct (Hlist d0 Hg0) as (N2 & d' & Hg' & Hl).
    exists (N1 + N2)%nat, d', (mkReply (map (fun e => LEntry (de_directory e) (de_name e)) l) [] (Ok (Done tt))). split; auto. split; [now constructor|].
    intros fuel Hfu. cbn [run_command]. unfold dir. unfold mbind, mlift. rewrite Ecur, Hix by lia. rewrite Hl by lia. reflexivity.
  Qed.

  (** [parse_file_arg] *)
  Lemma parse_ok p sh arg d : on_path p sh -> Forall unit_ok arg -> gd d -> (forall text n, arg = 47 :: text -> numeral text n -> v_object v n <> None) ->
    exists N d' y, gd d' /\ (forall fuel, (N <= fuel)%nat -> parse_file_arg fuel nt sh arg d = (d', Ok y)) /\
      match y with Done f => exists n o, file_is n o f /\ v_object v n = Some o /\ stands_for v p arg (inl n) | Said m => stands_for v p arg (inr m) end.
  Proof.
    intros Hp Hu Hg Hnum. destruct arg as [|c arg].
    { exists 0%nat, d, (Said MissingArgument). split; auto. split; [intros; reflexivity|]. constructor. }
    unfold parse_file_arg. destruct (c =? 47) eqn:Ec.
    - assert (c = 47) by lia. subst c. destruct (parse_number arg) as [n|] eqn:En.
      + pose proof (proj1 (parse_number_spec _ _) En) as Hn. specialize (Hnum arg n eq_refl Hn). destruct (v_object v n) as [o|] eqn:Eo; [|tauto].
        destruct (file_of n o Eo) as (f & Hfi & Hopen). destruct (Hopen d Hg) as (d' & E & Hg'). exists 0%nat, d', (Done f). split; auto. split.
        * intros fuel _. unfold mbind. rewrite E. reflexivity.
        * exists n, o. split; auto. split; auto. eapply sf_number; eauto.
      + exists 0%nat, d, (Said BadNumber). split; auto. split; [intros; reflexivity|]. constructor. intros n Hn. apply parse_number_spec in Hn. congruence.
    - destruct (on_path_current p sh Hp) as (f & Ecur & (o & l & Ho & He & Hfi)). assert (Hent : entries_of v (current p) l) by (exists o; auto).
      destruct (dir_facts _ _ _ _ d Hfi He Hg) as (N1 & d0 & ix & Hg0 & Hix & Hfind & _).
      destruct (Hfind (c :: arg) d0 Hu Hg0) as (N2 & d1 & r & Hg1 & Hr & Hff). unfold found_entry in Hr.
      destruct r as [[e|x| |]|]; try contradiction.
      + destruct Hr as (x & Hin & Hsame & (Hto & _)). destruct (target_dir _ _ _ Hent Hin) as (o' & Ho' & _). destruct (file_of _ _ Ho') as (f' & Hfi' & Hopen).
        destruct (Hopen d1 Hg1) as (d2 & E2 & Hg2). exists (N1 + N2)%nat, d2, (Done f'). split; auto. split.
        * intros fuel Hfu. unfold mbind at 1, mlift. rewrite Ecur. unfold mbind at 1. rewrite Hix by lia. rewrite Hff by lia. unfold mbind. rewrite Hto, E2. reflexivity.
        * exists (de_target x), o'. split; auto. split; auto. eapply sf_name; eauto. lia.
      + exists (N1 + N2)%nat, d1, (Said NoSuchFile). split; auto. split.
        * intros fuel Hfu. unfold mbind at 1, mlift. rewrite Ecur. unfold mbind at 1. rewrite Hix by lia. rewrite Hff by lia. reflexivity.
        * eapply sf_missing; eauto. lia.
  Qed.

  (** [get] *)
  Lemma splits_units arg a b : splits arg a b -> Forall unit_ok arg -> Forall unit_ok a /\ Forall unit_ok b.
  Proof.
    intros (_ & [->|(-> & ->)]) H; [|auto]. apply Forall_app in H as (H1 & H2). split; auto. now apply Forall_inv_tail in H2.
  Qed.
  Lemma get_ok p sh arg d : on_path p sh -> command_ok img v (DoGet arg) -> gd d -> exists N d' r, gd d' /\ answers img v p (DoGet arg) r p /\
    forall fuel, (N <= fuel)%nat -> run_command fuel nt sh (DoGet arg) d = (d', (sh, r)).
  Proof.
    intros Hp (Hu & Hnum) Hg. destruct (split_colon arg) as [fname stream] eqn:Es. pose proof (split_colon_spec _ _ _ Es) as Hs. destruct (splits_units _ _ _ Hs Hu) as (Hu1 & Hu2).
    destruct (parse_ok p sh fname d Hp Hu1 Hg) as (N1 & d1 & y & Hg1 & Hparse & Hy). { exact (proj2 (Hnum _ _ Hs)). }
    destruct y as [f|m].
    - destruct Hy as (n & o & Hfi & Hobj & Hsf). destruct (stream_of n o f stream d1 Hfi Hu2 Hg1) as (N2 & d2 & Hg2 & [(Hnone & Hfd)|(x & i & a & Hfirst & Hfd & Ei & Hend)]).
      + exists (N1 + N2)%nat, d2, (says NoStream). split; auto. split; [eapply an_get_no_stream; eauto|]. intros fuel Hfu. cbn [run_command]. unfold get, get_value. rewrite Es.
        unfold mbind at 1. rewrite Hparse by lia. unfold mbind. rewrite Hfd by lia. reflexivity.
      + destruct (Hend d2 Hg2) as (d3 & val & Ea & Hg3 & N3 & d4 & Hg4 & Hl).
        exists (N1 + N2 + N3)%nat, d4, (mkReply [] (snd x) (Ok (Done tt))). split; auto. split; [eapply an_get; eauto|].
        intros fuel Hfu. cbn [run_command]. unfold get, get_value. rewrite Es. unfold mbind at 1. rewrite Hparse by lia. unfold mbind at 1. rewrite Hfd by lia.
        unfold mbind at 1, mlift. rewrite Ei. unfold mbind. rewrite Ea. unfold mret. rewrite Hl by lia. reflexivity.
    - exists N1, d1, (says m). split; auto. split; [eapply an_get_none; eauto|]. intros fuel Hfu. cbn [run_command]. unfold get, get_value. rewrite Es. unfold mbind. rewrite Hparse by lia. reflexivity.
  Qed.

  (** [attr] *)
  Lemma attr_ok p sh runs arg d : on_path p sh -> command_ok img v (DoAttr runs arg) -> gd d -> exists N d' r, gd d' /\ answers img v p (DoAttr runs arg) r p /\
    forall fuel, (N <= fuel)%nat -> run_command fuel nt sh (DoAttr runs arg) d = (d', (sh, r)).
  Proof.
    intros Hp ((Hu & Hnum) & Hw) Hg. destruct (parse_ok p sh arg d Hp Hu Hg Hnum) as (N1 & d1 & y & Hg1 & Hparse & Hy). destruct y as [f|m].
    - destruct Hy as (n & o & Hfi & Hobj & Hsf). destruct (file_is_basic _ _ _ Hfi) as (Hb & Hl & _). destruct Hfi as (data & q & -> & (Hr & Hq) & Hcase). cbn in Hb, Hl.
      destruct Hcase as [(offs & W & Hno & _)|Hd].
      2: { destruct (listed_here _ _ _ _ Hd) as (before & lo & after & bs & offs & e & vs & Hhl & _). pose proof Hhl as [_ _ Hff]. destruct Hw as (Hw1 & Hw2).
        destruct (attr_file_listed img nt (v_mft v) n q data before lo after bs offs e vs runs Hff) as (N2 & ls & Hls & E).
        - rewrite Hcs. exact (Hw1 n o data _ Hobj Hr (ff_walk _ _ _ _ _ _ _ _ _ _ _ _ Hff)).
        - exact (Hw2 n o q data nt before lo after bs offs e vs Hobj (conj Hr Hq) Hhl).
        - set (M := (N1 + N2)%nat). destruct (E M d1 ltac:(unfold M; lia) Hg1) as (d2 & Hg2 & E2).
          assert (E3 : run_command M nt sh (DoAttr runs arg) d = (d2, (sh, mkReply ls [] (Ok (Done tt))))).
          { cbn [run_command]. unfold attr. rewrite (pbind_pm _ _ _ _ _ (Hparse M ltac:(unfold M; lia))). unfold pbind. rewrite E2. cbn [pret]. now rewrite app_nil_r. }
          exists M, d2, (mkReply ls [] (Ok (Done tt))). split; auto. split; [eapply an_attr_listed; eauto; split; auto|].
          intros fuel Hfu. rewrite (run_command_fuel M fuel Hfu); rewrite E3; [reflexivity|discriminate]. }
      pose proof Hr as (Hn & Hm & Hone & _ & Hst & _). pose proof (ve_cs _ _ _ (sv_mft _ _ SV)) as Hc1. pose proof (sv_record _ _ SV) as Hrs.
      destruct (one_extent_slice _ _ _ _ _ (sv_mft _ _ SV) Hone) as (q' & Eq & Hq0 & Hql & Hs & _); [nia|]. rewrite Hq in Eq. injection Eq as <-.
      assert (Hzl : zlen data = v_record v) by (rewrite (st_len _ _ Hst), <- Hs, slice_len by lia; lia).
      pose proof (disk_position_pos _ _ _ (sv_mft _ _ SV) (n * v_record v) q ltac:(nia) Hq) as Hqp. pose proof (ve_img _ _ _ (sv_mft _ _ SV)) as Hi.
      destruct (attr_file_plain (eq d1) nt data q n Hb ltac:(lia) Hqp ltac:(lia) runs offs W ltac:(lia) Hno) as (N2 & ls & Hls & E). { rewrite Hcs. exact (proj1 Hw n o data offs Hobj Hr W). }
      exists (N1 + N2)%nat, d1, (mkReply ls [] (Ok (Done tt))). split; auto. split; [rewrite Hcs in Hls; eapply an_attr; [exact Hsf|split; [exact Hr|exact Hq]|exact W|exact Hno|exact Hls]|].
      intros fuel Hfu. destruct (E fuel d1 ltac:(lia) eq_refl) as (d2 & <- & E2). cbn [run_command]. unfold attr. rewrite (pbind_pm _ _ _ _ _ (Hparse fuel ltac:(lia))). unfold pbind. rewrite E2.
      cbn [pret]. now rewrite app_nil_r.
    - exists N1, d1, (says m). split; auto. split; [now apply an_attr_none|]. intros fuel Hfu. cbn [run_command]. unfold attr. rewrite (pbind_pm _ _ _ _ _ (Hparse fuel ltac:(lia))). reflexivity.
  Qed.

  (** [fileinfo] *)
  Lemma describes_whole data o offs : bytes_ok data -> attr_walk data (field 2 data 20) offs true ->
    of_type data 48 (says_link data) offs (ob_links o) -> of_type data 128 (says_stream (v_cluster v) img data) offs (ob_streams o) ->
    (forall x, In x offs -> attr_type_at data x = 16 -> attr_resident_at data x /\ x + 22 <= zlen data /\ exists bs, attr_value_at data x bs /\ 48 <= zlen bs) ->
    Forall (info_whole data) offs.
  Proof.
    intros Hb W H1 H2 H3. apply Forall_forall. intros x Hx. split; auto.
    - intros Ht. destruct (of_type_in _ _ _ _ _ _ H1 Hx Ht) as (y & _ & (S1 & S2 & bs & S3 & S4 & S5 & S6 & _)). split; auto. split; auto. exists bs. auto.
    - intros Ht. destruct (of_type_in _ _ _ _ _ _ H2 Hx Ht) as (y & _ & ((bs & S1 & _) & Hc)). split; [eauto|].
      destruct (field 1 data (x + 8) =? 0) eqn:E; destruct Hc as [bs' K1 K2 K3|l K1 K2 K3 K4 K5 K6]; try lia; unfold attr_resident_at in K1; lia.
  Qed.
  Lemma describes_whole_listed data o views bs e : Forall (at_view data (fun data o => type_known (attr_type_at data o))) views ->
    of_type_listed data 48 (fun w x => at_view data (fun data o => says_link data o x) w) views (ob_links o) ->
    of_type_listed data 128 (fun w x => at_view data (fun data o => exists bs, attr_name_at data o bs /\ utf16 bs (fst x)) w /\
                                         view_content img nt (v_mft v) data bs e w (snd x)) views (ob_streams o) ->
    (forall w, In w views -> at_view data whole_standard w) -> Forall (at_view data info_whole) views.
  Proof.
    intros Hk H1 H2 H3. apply Forall_forall. intros w Hw. specialize (H3 w Hw). rewrite Forall_forall in Hk. specialize (Hk w Hw).
    pose proof (fun Ht => of_type_listed_in _ _ _ _ _ w H1 Hw Ht) as K1. pose proof (fun Ht => of_type_listed_in _ _ _ _ _ w H2 Hw Ht) as K2. unfold at_view in *.
    destruct (view_at data w) as [[dat x]|] eqn:Ev; [|contradiction]. split; auto.
    - intros Ht. destruct (K1 Ht) as (y & _ & (S1 & S2 & b & S3 & S4 & S5 & S6 & _)). split; auto. split; auto. exists b. auto.
    - intros Ht. destruct (K2 Ht) as (y & _ & ((b & S1 & _) & Hc)). split; [eauto|].
      destruct w as [o0|m p0 dat0 a0|m p0 dat0 a0 from|]; cbn [view_at view_content] in *; try discriminate; injection Ev as <- <-.
      1, 2: destruct (field 1 _ (_ + 8) =? 0) eqn:E; destruct Hc as [bs' Q1 Q2 Q3|l Q1 Q2 Q3 Q4 Q5 Q6]; try lia; unfold attr_resident_at in Q1; lia.
      destruct Hc as (parts & H56 & _). destruct (field 1 dat0 (a0 + 8) =? 0); lia.
  Qed.
  Lemma fileinfo_ok p sh arg d : on_path p sh -> command_ok img v (DoFileinfo arg) -> gd d -> exists N d' r, gd d' /\ answers img v p (DoFileinfo arg) r p /\
    forall fuel, (N <= fuel)%nat -> run_command fuel nt sh (DoFileinfo arg) d = (d', (sh, r)).
  Proof.
    intros Hp ((Hu & Hnum) & Hw) Hg. destruct (parse_ok p sh arg d Hp Hu Hg Hnum) as (N1 & d1 & y & Hg1 & Hparse & Hy). destruct y as [f|m].
    - destruct Hy as (n & o & Hfi & Hobj & Hsf). destruct (file_is_basic _ _ _ Hfi) as (Hb & Hl & _). destruct Hfi as (data & q & -> & (Hr & Hq) & Hcase). cbn in Hb, Hl.
      destruct Hcase as [(offs & W & Hno & _ & Hl1 & Hs1 & _)|Hd].
      2: { destruct (listed_here _ _ _ _ Hd) as (before & lo & after & bs & offs & e & vs & Hhl & Hk & Hl1 & Hs1 & _). pose proof Hhl as [_ _ Hff].
        destruct (fileinfo_listed img nt (v_mft v) n q data before lo after bs offs e vs Hff Hl) as (N2 & parts & F & E).
        - apply (describes_whole_listed data o _ bs e Hk Hl1 Hs1). intros w Hw'. apply in_app_or in Hw' as [Hw'|Hw']; [|apply in_app_or in Hw' as [Hw'|Hw']].
          + apply in_map_iff in Hw' as (x & <- & Hx). refine (proj1 Hw n o data _ x Hobj Hr (ff_walk _ _ _ _ _ _ _ _ _ _ _ _ Hff) _). apply in_or_app. auto.
          + exact (proj2 Hw n o q data nt before lo after bs offs e vs w Hobj (conj Hr Hq) Hhl Hw').
          + apply in_map_iff in Hw' as (x & <- & Hx). refine (proj1 Hw n o data _ x Hobj Hr (ff_walk _ _ _ _ _ _ _ _ _ _ _ _ Hff) _). apply in_or_app. right. now right.
        - set (M := (N1 + N2)%nat). destruct (E M d1 ltac:(unfold M; lia) Hg1) as (d2 & Hg2 & E2).
          assert (E3 : run_command M nt sh (DoFileinfo arg) d = (d2, (sh, mkReply (file_line n q data :: concat parts) [] (Ok (Done tt))))).
          { cbn [run_command]. unfold fileinfo. rewrite (pbind_pm _ _ _ _ _ (Hparse M ltac:(unfold M; lia))). unfold pbind. rewrite E2. cbn [pret]. now rewrite app_nil_r. }
          exists M, d2, (mkReply (file_line n q data :: concat parts) [] (Ok (Done tt))). split; auto. split; [eapply an_fileinfo_listed; eauto; split; auto|].
          intros fuel Hfu. rewrite (run_command_fuel M fuel Hfu); rewrite E3; [reflexivity|discriminate]. }
      destruct (fileinfo_plain nt n q data offs Hb Hl W Hno) as (N2 & parts & F & E). { apply (describes_whole data o offs Hb W Hl1 Hs1). intros x Hx Ht. exact (proj1 Hw n o data offs x Hobj Hr W Hx Ht). }
      exists (N1 + N2)%nat, d1, (mkReply (file_line n q data :: concat parts) [] (Ok (Done tt))). split; auto. split; [eapply an_fileinfo; eauto; split; auto|].
      intros fuel Hfu. cbn [run_command]. unfold fileinfo. rewrite (pbind_pm _ _ _ _ _ (Hparse fuel ltac:(lia))). unfold pbind. rewrite E by lia. cbn [pret]. now rewrite app_nil_r.
    - exists N1, d1, (says m). split; auto. split; [now apply an_fileinfo_none|]. intros fuel Hfu. cbn [run_command]. unfold fileinfo. rewrite (pbind_pm _ _ _ _ _ (Hparse fuel ltac:(lia))). reflexivity.
  Qed.

  (** [fsinfo] *)
  Context (Hbd : boot_describes (ztake 512 img) (sector_size nt) (cluster_size nt) (ntfs_size nt) mp (file_record_size nt) (serial_number nt)).
  Lemma fsinfo_ok p sh d : command_ok img v DoFsinfo -> gd d -> exists d' r, gd d' /\ answers img v p DoFsinfo r p /\
    forall fuel, run_command fuel nt sh DoFsinfo d = (d', (sh, r)).
  Proof.
    intros (data & major & minor & label & Hr & Hv) Hg. destruct (file_at 3 data Hr) as (q & _ & Hopen). destruct (numbered_basic 3 data Hr) as (Hb & Hl).
    destruct (fsinfo_spec img nt (mkFile (mkRecord data (Some q)) 3) data major minor label Hopen eq_refl Hb ltac:(lia) Hv d Hg) as (d' & Hg' & E).
    eexists d', _. split; auto. split; [|intros fuel; cbn [run_command]; rewrite E; cbn [rbind]; reflexivity].
    rewrite Hmp. change [LGeometry ?a ?b ?c; ?x; LSize ?s ?e ?z; LLabel ?l] with (volume_lines s a z mp b e major minor l). rewrite Hcs, Hfr in *. eapply an_fsinfo; eauto.
  Qed.

  (** ** Histories *)
  Lemma command_step c p sh d : command_ok img v c -> on_path p sh -> gd d ->
    exists N d' sh' r p', gd d' /\ on_path p' sh' /\ answers img v p c r p' /\ forall fuel, (N <= fuel)%nat -> run_command fuel nt sh c d = (d', (sh', r)).
  Proof.
    intros Hc Hp Hg. destruct c as [arg| |arg|runs arg|arg| |arg| |word].
    - exact (cd_ok p sh arg d Hp Hc Hg).
    - destruct (dir_ok p sh d Hp Hg) as (N & d' & r & H1 & H2 & H3). exists N, d', sh, r, p. auto.
    - destruct (get_ok p sh arg d Hp Hc Hg) as (N & d' & r & H1 & H2 & H3). exists N, d', sh, r, p. auto.
    - destruct (attr_ok p sh runs arg d Hp Hc Hg) as (N & d' & r & H1 & H2 & H3). exists N, d', sh, r, p. auto.
    - destruct (fileinfo_ok p sh arg d Hp Hc Hg) as (N & d' & r & H1 & H2 & H3). exists N, d', sh, r, p. auto.
    - destruct (fsinfo_ok p sh d Hc Hg) as (d' & r & H1 & H2 & H3). exists 0%nat, d', sh, r, p. auto.
    - exists 0%nat, d, sh, quiet, p. split; auto. split; auto. split; [constructor|reflexivity].
    - exists 0%nat, d, sh, quiet, p. split; auto. split; auto. split; [constructor|reflexivity].
    - exists 0%nat, d, sh, (says NoSuchCommand), p. split; auto. split; auto. split; [constructor|reflexivity].
  Qed.
  Lemma commands_ok cs : Forall (command_ok img v) cs -> forall p sh d, on_path p sh -> gd d -> exists N l, history img v p cs l /\
    forall fuel, (N <= fuel)%nat -> run_commands fuel nt sh cs d = l.
  Proof.
    induction 1 as [|c cs Hc _ IH]; intros p sh d Hp Hg.
    - exists 0%nat, []. split; [constructor|reflexivity].
    - destruct (command_step c p sh d Hc Hp Hg) as (N1 & d' & sh' & r & p' & Hg' & Hp' & Ha & Hrun). destruct (IH p' sh' d' Hp' Hg') as (N2 & l & Hh & Hl).
      exists (N1 + N2)%nat, ((r, prompt p') :: l). split; [econstructor; eauto|]. intros fuel Hfu. cbn [run_commands]. rewrite Hrun by lia.
      assert (Hok : exists a, re_outcome r = Ok a) by (inversion Ha; cbn; eauto). destruct Hok as (a & ->).
      destruct Hp' as (-> & _). f_equal. apply Hl. lia.
  Qed.
End Vol.
