(** * C26-C30, C40, C49: index nodes, index records, directories. *)
From Verif Require Import Base Dev Types Record DataRuns Stream NonResident Resident Attribute File Structured AttrList Upcase Index
  Spec SpecMisc SpecValues SpecIndex BaseProofs AttributeProofs FileProofs StructuredProofs ValueProofs AttrListProofs MiscProofs
  NodeProofs IndexRecordProofs IndexProofs IndexTotalProofs DirectoryProofs DirTotalProofs NameFindProofs CycleProofs IndexClaims RecordsProofs
  StreamExamples FileExamples ValueExamples IndexExamples.

(** ** C26. Index nodes *)
(** The entries of any $INDEX_ROOT value that is accepted are those between the two offsets of its header ... *)
Theorem C26_root_entries : forall root p, bytes_ok root -> index_root_ok root ->
  ir_new root p = Ok (mkIR root p) /\ ir_entries (mkIR root p) = Ok (mkNE (root_entries root) (pos_add p (16 + field 4 root 16))).
Proof. exact root_entries_ok. Qed.
Print Assumptions C26_root_entries.
(** ... and likewise for an index record. If these are in the wrong order, [entries] panics. *)
Theorem C26_record_entries : forall data p, bytes_ok data -> 36 <= zlen data -> index_record_ok data ->
  (field 4 data 24 <= field 4 data 28 ->
    irec_entries (mkRecord data p) = Ok (mkNE (slice data (24 + field 4 data 24) (24 + field 4 data 28)) (pos_add p (24 + field 4 data 24)))) /\
  (field 4 data 28 < field 4 data 24 -> irec_entries (mkRecord data p) = Panic).
Proof. exact record_entries_ok. Qed.
Print Assumptions C26_record_entries.
(** The iterator over a node of any content returns the bytes and positions of the entries of [node_walk], all inside the node, and then forever
    [None] ([NodeDone]), an error ([NodeMalformed]) or a panic ([NodeTooShort]).  So it ends only for nodes whose last entry fits:
    see [C26_ends_refuted]. *)
Theorem C26_node_partial : forall node p, bytes_ok node -> position_sane p (zlen node) ->
  exists l e x, node_walk node (zlen node) 0 l e /\
    Forall (fun o => 0 <= o /\ o + entry_len node o <= zlen node) l /\ 13 * (zlen l - 1) <= zlen node /\
    forall n, iterate node_entries_next (length l + n) (mkNE node p) =
      map (fun o => Some (Ok (mkIE (entry_bytes node o) (pos_add p o)))) l ++ repeat (after_node e x) n.
Proof. exact node_entries_iteration. Qed.
Print Assumptions C26_node_partial.
(** Each entry starts where the one before ends, the first one at the start, and there is none after one with the LAST flag. *)
Theorem C26_consecutive : forall node stop o l e, node_walk node stop o l e ->
  (forall a l2, l = a :: l2 -> a = o) /\
  (forall l1 a b l2, l = l1 ++ a :: b :: l2 -> b = a + entry_len node a /\ entry_is_last node a = false).
Proof. intros node stop o l e W. split; [exact (node_walk_first _ _ _ _ _ W)|exact (node_walk_consecutive _ _ _ _ _ W)]. Qed.
Print Assumptions C26_consecutive.
(** The two ways in which it does not end: an entry that does not fit gives the same error again and again, one that is too short a panic. *)
Definition ex_cut_node : list Z := ztake 24 (ex_entry 30 0 (ex_key 97) []).
Definition ex_short_node : list Z := ztake 8 (ex_entry 30 0 (ex_key 97) []) ++ [8] ++ zrepeat 0 15.
Theorem C26_ends_refuted :
  (exists node p x, bytes_ok node /\ position_sane p (zlen node) /\ forall n, iterate node_entries_next n (mkNE node p) = repeat (Some (Err x)) n) /\
  (exists node p, bytes_ok node /\ position_sane p (zlen node) /\ forall n, iterate node_entries_next n (mkNE node p) = repeat (Some Panic) n).
Proof.
  split.
  - exists ex_cut_node, (Some 4096). eexists. split; [apply bytes_okb_ok; vm_compute; reflexivity|].
    split; [intros v [= <-]; vm_compute; split; (reflexivity || discriminate)|]. intros n. apply iterate_fixed. vm_compute. reflexivity.
  - exists ex_short_node, (Some 4096). split; [apply bytes_okb_ok; vm_compute; reflexivity|].
    split; [intros v [= <-]; vm_compute; split; (reflexivity || discriminate)|]. intros n. apply iterate_fixed. vm_compute. reflexivity.
Qed.
Print Assumptions C26_ends_refuted.
Example C26_example : bytes_ok ex_dir_root /\ index_root_ok ex_dir_root /\ position_sane (Some 4096) (zlen (root_entries ex_dir_root)) /\
  node_walk (root_entries ex_dir_root) (zlen (root_entries ex_dir_root)) 0 [0; 96] NodeDone /\
  index_record_ok (ex_node_data ex_dir_node0) /\ field 4 (ex_node_data ex_dir_node0) 24 <= field 4 (ex_node_data ex_dir_node0) 28.
Proof.
  split; [apply bytes_okb_ok; vm_compute; reflexivity|]. split; [apply ex_dir_is_directory|]. split; [intros v [= <-]; vm_compute; split; (reflexivity || discriminate)|].
  split; [apply (node_offs_ok 10); vm_compute; reflexivity|]. split; [apply ex_dir_child0|vm_compute; discriminate].
Qed.

(** ** C27. Directory listing *)
(** [f] is a directory without attribute list on a device without faults; its index (of any shape) lists the entries [l]: then opening the index succeeds, and
    iterating it returns exactly [l], in order, and then [None] forever. [k] bounds the loop iterations of one call; [N] depends on the tree. *)
Theorem C27_directory_listing : forall nt img f offs clean root alloc l fuel d, bytes_ok img -> bytes_ok (f_data f) -> 24 <= zlen (f_data f) ->
  attr_walk (f_data f) (field 2 (f_data f) 20) offs clean -> no_attribute_list (f_data f) offs -> 1 <= cluster_size nt ->
  is_directory (cluster_size nt) img (f_data f) offs root alloc -> index_listing (cluster_size nt) root alloc l ->
  (length offs < fuel)%nat -> faultless d -> d_img d = img ->
  exists ix, directory_index fuel nt f d = (d, Ok ix) /\
  exists es N, map ie_slice es = l /\ forall k n, (N <= k)%nat ->
    iterate (with_dev (entries_next k nt ix)) (length es + n) (index_entries ix, d) = map (fun e => Some (Ok e)) es ++ repeat None n.
Proof. exact directory_listing. Qed.
Print Assumptions C27_directory_listing.
(** An index has one listing. *)
Theorem C27_listing_unique : forall cs root alloc l l', bytes_ok alloc -> index_listing cs root alloc l -> index_listing cs root alloc l' -> l = l'.
Proof. intros cs root alloc l l' Hb H H'. exact (listing_fun _ (fun v d1 d2 => index_child_fun cs root alloc v d1 d2 Hb) _ _ _ l H l' H'). Qed.
Print Assumptions C27_listing_unique.
Example C27_example : bytes_ok ex_dir_img /\ bytes_ok (f_data ex_dir) /\ 24 <= zlen (f_data ex_dir) /\
  attr_walk (f_data ex_dir) (field 2 (f_data ex_dir) 20) ex_dir_offs true /\ no_attribute_list (f_data ex_dir) ex_dir_offs /\ cluster_size ex_dir_ntfs = 512 /\
  is_directory 512 ex_dir_img (f_data ex_dir) ex_dir_offs ex_dir_root (ex_dir_alloc ex_dir_img) /\
  index_listing 512 ex_dir_root (ex_dir_alloc ex_dir_img) ex_dir_list /\ faultless ex_dir_dev /\ d_img ex_dir_dev = ex_dir_img.
Proof.
  destruct ex_dir_bytes as (H1 & H2 & H3). do 3 (split; auto). split; [exact ex_dir_walk|].
  split; [repeat constructor; vm_compute; discriminate|]. split; auto. split; [exact ex_dir_is_directory|]. split; [exact ex_dir_listing|]. split; [|reflexivity].
  split; cbn; repeat constructor.
Qed.

(** ** C28. Lookup *)
(** [c e] is how what is searched compares to the entry [e]. If these answers are consistent with the order of the index, then lookup returns an entry
    that compares equal, and [None] only if there is none. *)
Theorem C28_find : forall nt img f offs clean root alloc l fuel d K (kp : list Z -> position -> res K) cmp c, bytes_ok img -> bytes_ok (f_data f) ->
  24 <= zlen (f_data f) -> attr_walk (f_data f) (field 2 (f_data f) 20) offs clean -> no_attribute_list (f_data f) offs -> 1 <= cluster_size nt ->
  is_directory (cluster_size nt) img (f_data f) offs root alloc -> index_listing (cluster_size nt) root alloc l ->
  (length offs < fuel)%nat -> faultless d -> d_img d = img ->
  Forall (fun e => has_key e /\ forall p, exists k, kp (key_of e) p = Ok k /\ cmp k = Ok (c e)) l -> consistent c l ->
  exists ix, directory_index fuel nt f d = (d, Ok ix) /\
  exists N d' r, d_img d' = img /\ (forall n, (N <= n)%nat -> index_find kp cmp n nt ix d = (d', r)) /\
  match r with
  | Some (Ok e) => In (ie_slice e) l /\ c (ie_slice e) = Eq
  | None => Forall (fun e => c e <> Eq) l
  | _ => False
  end.
Proof. exact directory_lookup. Qed.
Print Assumptions C28_find.
(** [NtfsFileNameIndex::find]: the index is sorted by name (compared unit by unit in upper case); the name is found regardless of case, or does not exist. *)
Theorem C28_file_names : forall nt img f offs clean root alloc l fuel d t name, bytes_ok img -> bytes_ok (f_data f) -> 24 <= zlen (f_data f) ->
  attr_walk (f_data f) (field 2 (f_data f) 20) offs clean -> no_attribute_list (f_data f) offs -> 1 <= cluster_size nt ->
  is_directory (cluster_size nt) img (f_data f) offs root alloc -> index_listing (cluster_size nt) root alloc l ->
  (length offs < fuel)%nat -> faultless d -> d_img d = img ->
  upcase_table nt = Some t -> zlen t = 65536 -> Forall unit_ok name ->
  Forall (fun e => exists us, named e us) l -> names_sorted (fun a b => lex_lt (upper t a) (upper t b)) l ->
  exists ix, directory_index fuel nt f d = (d, Ok ix) /\
  exists N d' r, d_img d' = img /\ (forall n, (N <= n)%nat -> file_name_find n nt ix name d = (d', r)) /\
  match r with
  | Some (Ok e) => In (ie_slice e) l /\ exists us, named (ie_slice e) us /\ upper t us = upper t name
  | None => forall e us, In e l -> named e us -> upper t us <> upper t name
  | _ => False
  end.
Proof. exact directory_name_lookup. Qed.
Print Assumptions C28_file_names.
(** Whatever the index looks like and the device does, an entry that is returned has a key that compares equal. *)
Theorem C28_sound_always : forall K (kp : list Z -> position -> res K) cmp fuel nt ix d d' e,
  index_find kp cmp fuel nt ix d = (d', Some (Ok e)) -> exists k, ie_key kp e = Some (Ok k) /\ cmp k = Ok Eq.
Proof. intros K kp cmp fuel nt ix d d' e. apply find_sound. Qed.
Print Assumptions C28_sound_always.
Lemma utf16_fun bs us us' : utf16 bs us -> utf16 bs us' -> us = us'.
Proof. intros H. revert us'. induction H; intros us' H'; inversion H'; subst; f_equal; auto. Qed.
Lemma named_fun e us us' : named e us -> named e us' -> us = us'.
Proof. intros (_ & _ & _ & _ & H) (_ & _ & _ & _ & H'). eapply utf16_fun; eauto. Qed.
Lemma pairs3 {A} (x y z : A) l1 a l2 b l3 : [x; y; z] = l1 ++ a :: l2 ++ b :: l3 -> a = x /\ b = y \/ a = x /\ b = z \/ a = y /\ b = z.
Proof.
  intros E. destruct l1 as [|x1 [|x2 [|x3 l1]]]; destruct l2 as [|y1 [|y2 l2]]; cbn [app] in E; try (destruct l1; discriminate); try (destruct l2; discriminate);
    injection E; intros; subst; auto; try discriminate.
Qed.
Lemma ex_named : named (ex_entry 30 0 (ex_key 97) []) [97] /\ named (ex_entry 31 1 (ex_key 66) (ex_vcn 0)) [66] /\ named (ex_entry 32 0 (ex_key 99) []) [99].
Proof.
  assert (H : forall c, utf16 [c; 0] [c]). { intros c. replace [c] with [c + 256 * 0] by (f_equal; lia). repeat constructor. }
  split; [|split]; (split; [split; vm_compute; (reflexivity || discriminate)|]; split; [vm_compute; discriminate|]; split; [vm_compute; discriminate|];
  split; [vm_compute; discriminate|]; match goal with |- utf16 ?x _ => let y := eval vm_compute in x in change x with y end; apply H).
Qed.
(** The hypotheses hold for the directory of C27_example; "A" and "b" are found, "z" is not. *)
Example C28_example : upcase_table ex_dir_ntfs = Some ex_dir_table /\ zlen ex_dir_table = 65536 /\
  Forall (fun e => exists us, named e us) ex_dir_list /\ names_sorted (fun a b => lex_lt (upper ex_dir_table a) (upper ex_dir_table b)) ex_dir_list /\
  exists ix, snd (directory_index 10 ex_dir_ntfs ex_dir ex_dir_dev) = Ok ix /\
    (exists e, snd (file_name_find 20 ex_dir_ntfs ix [65] ex_dir_dev) = Some (Ok e) /\ ie_slice e = ex_entry 30 0 (ex_key 97) []) /\
    (exists e, snd (file_name_find 20 ex_dir_ntfs ix [98] ex_dir_dev) = Some (Ok e) /\ ie_slice e = ex_entry 31 1 (ex_key 66) (ex_vcn 0)) /\
    snd (file_name_find 20 ex_dir_ntfs ix [122] ex_dir_dev) = None.
Proof.
  split; [reflexivity|]. split; [vm_compute; reflexivity|]. destruct ex_named as (N1 & N2 & N3).
  split; [unfold ex_dir_list; apply Forall_cons; [exists [97]; exact N1|apply Forall_cons; [exists [66]; exact N2|apply Forall_cons; [exists [99]; exact N3|apply Forall_nil]]]|]. split.
  - assert (U : upper ex_dir_table [97] = [65] /\ upper ex_dir_table [66] = [66] /\ upper ex_dir_table [99] = [67]) by (vm_compute; auto).
    destruct U as (U1 & U2 & U3).
    assert (L : forall x y, x < y -> ~ lex_lt [y] [x]). { intros x y Hxy K. apply lex_head_lt in K; lia. }
    intros l1 a l2 b l3 na nb E Na Nb. apply pairs3 in E. destruct E as [(-> & ->)|[(-> & ->)|(-> & ->)]].
    + rewrite (named_fun _ _ _ Na N1), (named_fun _ _ _ Nb N2), U1, U2. apply L. lia.
    + rewrite (named_fun _ _ _ Na N1), (named_fun _ _ _ Nb N3), U1, U3. apply L. lia.
    + rewrite (named_fun _ _ _ Na N2), (named_fun _ _ _ Nb N3), U2, U3. apply L. lia.
  - eexists. split; [vm_compute; reflexivity|]. split; [eexists; split; vm_compute; reflexivity|]. split; [eexists; split; vm_compute; reflexivity|vm_compute; reflexivity].
Qed.

(** ** C29. Termination *)
(** References between index records are finite chains ([acyclic]), everything else may be arbitrary: then every call of the iterator, any number of times,
    and every lookup returns after boundedly many loop iterations. *)
Theorem C29_acyclic_partial : forall nt img f offs clean root alloc fuel d, bytes_ok img -> bytes_ok (f_data f) -> 24 <= zlen (f_data f) ->
  attr_walk (f_data f) (field 2 (f_data f) 20) offs clean -> no_attribute_list (f_data f) offs -> 1 <= cluster_size nt ->
  is_directory (cluster_size nt) img (f_data f) offs root alloc -> arrays_clear (cluster_size nt) (root_record_size root) alloc ->
  acyclic (index_child (cluster_size nt) root alloc) ->
  (length offs < fuel)%nat -> faultless d -> d_img d = img ->
  exists ix, directory_index fuel nt f d = (d, Ok ix) /\
  (exists N, forall k n, (N <= k)%nat ->
     Forall (fun x => x <> Some OutOfFuel) (iterate (with_dev (entries_next k nt ix)) n (index_entries ix, d))) /\
  forall K (kp : list Z -> position -> res K) cmp, (forall s p, kp s p <> OutOfFuel) -> (forall k, cmp k <> OutOfFuel) ->
    exists N, forall k, (N <= k)%nat -> snd (index_find kp cmp k nt ix d) <> Some OutOfFuel.
Proof. exact directory_terminates. Qed.
Print Assumptions C29_acyclic_partial.
(** A directory whose index record refers to itself: no number of loop iterations is enough, for the iterator and for every lookup. *)
Theorem C29_cycle_refuted : exists nt img f offs root alloc d ix, bytes_ok img /\ bytes_ok (f_data f) /\
  attr_walk (f_data f) (field 2 (f_data f) 20) offs true /\ is_directory (cluster_size nt) img (f_data f) offs root alloc /\ faultless d /\ d_img d = img /\
  directory_index 3 nt f d = (d, Ok ix) /\
  (forall k, exists d' st, entries_next k nt ix (index_entries ix) d = (d', (st, Some OutOfFuel))) /\
  forall k name, exists d', file_name_find k nt ix name d = (d', Some OutOfFuel).
Proof.
  destruct ex_cyc_bytes as (H1 & H2 & H3). set (d := mkDev ex_cyc_img 0 [] []). assert (Hd : faultless d) by (split; constructor).
  destruct (directory_cycle ex_dir_ntfs ex_cyc_img ex_cyc ex_cyc_offs true ex_cyc_root (ex_dir_alloc ex_cyc_img) 3 d 0 (ex_node_data ex_cyc_node)) as (ix & E & K1 & K2); auto;
    try exact ex_cyc_is_directory; try exact ex_cyc_child; try exact ex_cyc_root_descends; try exact ex_cyc_node_descends; try exact ex_cyc_walk; try (cbn; lia).
  { repeat constructor; vm_compute; discriminate. }
  exists ex_dir_ntfs, ex_cyc_img, ex_cyc, ex_cyc_offs, ex_cyc_root, (ex_dir_alloc ex_cyc_img), d, ix.
  split; auto. split; auto. split; [exact ex_cyc_walk|]. split; [exact ex_cyc_is_directory|]. auto 10.
Qed.
Print Assumptions C29_cycle_refuted.
Example C29_example : arrays_clear 512 (root_record_size ex_dir_root) (ex_dir_alloc ex_dir_img) /\ acyclic (index_child 512 ex_dir_root (ex_dir_alloc ex_dir_img)).
Proof. split; [exact ex_dir_clear|exact ex_dir_acyclic]. Qed.

(** ** C30. Hostile indexes *)
(** Opening the index of any file record without attribute list whose attributes have room for their header, and whose $INDEX_ROOT values do not end before
    they start ([roots_ordered]). *)
Theorem C30_open_partial : forall fuel nt f offs clean d, bytes_ok (f_data f) -> 24 <= zlen (f_data f) -> attr_walk (f_data f) (field 2 (f_data f) 20) offs clean ->
  no_attribute_list (f_data f) offs -> (length offs < fuel)%nat -> (forall o, In o offs -> o + 22 <= zlen (f_data f)) -> roots_ordered (f_data f) offs ->
  exists r, directory_index fuel nt f d = (d, r) /\ returns r.
Proof. exact directory_index_returns. Qed.
Print Assumptions C30_open_partial.
(** Iterating and finding, with the nodes and records of any content except for the three cases of [C30_no_panic_refuted]: sizes near 2^32,
    entries shorter than their header, cycles. *)
Theorem C30_iterate_partial : forall nt img f offs clean root alloc fuel d, bytes_ok img -> bytes_ok (f_data f) -> 24 <= zlen (f_data f) ->
  attr_walk (f_data f) (field 2 (f_data f) 20) offs clean -> no_attribute_list (f_data f) offs -> 1 <= cluster_size nt ->
  is_directory (cluster_size nt) img (f_data f) offs root alloc -> arrays_clear (cluster_size nt) (root_record_size root) alloc ->
  acyclic (index_child (cluster_size nt) root alloc) -> sizes_small (cluster_size nt) (root_record_size root) alloc ->
  no_short_entry (index_child (cluster_size nt) root alloc) (root_entries root) ->
  (length offs < fuel)%nat -> faultless d -> d_img d = img ->
  exists ix, directory_index fuel nt f d = (d, Ok ix) /\
  (exists N, forall k n, (N <= k)%nat ->
     Forall (fun x => forall r, x = Some r -> returns r) (iterate (with_dev (entries_next k nt ix)) n (index_entries ix, d))) /\
  forall K (kp : list Z -> position -> res K) cmp, (forall s p, returns (kp s p)) -> (forall k, returns (cmp k)) ->
    exists N, forall k r, (N <= k)%nat -> snd (index_find kp cmp k nt ix d) = Some r -> returns r.
Proof. exact directory_no_panic. Qed.
Print Assumptions C30_iterate_partial.
(** Panics: (1) opening the index if the $INDEX_ROOT's entries end before they start; (2) iterating if an entry is shorter than its header;
    (3) iterating if the allocated size of an index record is near 2^32; (4) [NtfsIndexRecord::entries] of a valid record whose entries end before they start. *)
Definition ex_unordered_root : list Z := ztake 20 (ex_root 0 (ex_entry 0 2 [] [])) ++ [8] ++ slice (ex_root 0 (ex_entry 0 2 [] [])) 21 48.
Definition ex_short_root : list Z := ex_root 0 ex_short_node.
Definition ex_huge_node : list Z := ztake 32 ex_dir_node0 ++ [255; 255; 255; 255] ++ slice ex_dir_node0 36 1024.
Definition ex_huge_dev : dev := mkDev (zrepeat 0 1024 ++ ex_huge_node ++ ex_dir_node2) 0 [] [].
Definition ex_unordered_node : list Z := ztake 28 ex_dir_node0 ++ [8; 0; 0; 0] ++ slice ex_dir_node0 32 1024.
Theorem C30_no_panic_refuted :
  (exists f, bytes_ok (f_data f) /\ snd (directory_index 10 ex_dir_ntfs f ex_dir_dev) = Panic) /\
  (exists f ix, bytes_ok (f_data f) /\ snd (directory_index 10 ex_dir_ntfs f ex_dir_dev) = Ok ix /\
     snd (snd (entries_next 10 ex_dir_ntfs ix (index_entries ix) ex_dir_dev)) = Some Panic) /\
  (exists f d ix, bytes_ok (f_data f) /\ bytes_ok (d_img d) /\ faultless d /\ snd (directory_index 10 ex_dir_ntfs f d) = Ok ix /\
     snd (snd (entries_next 10 ex_dir_ntfs ix (index_entries ix) d)) = Some Panic) /\
  (exists bs r, bytes_ok bs /\ irec_of_bytes bs None = Ok r /\ irec_entries r = Panic).
Proof.
  split; [|split; [|split]].
  - exists (ex_dir_file ex_unordered_root). split; [apply bytes_okb_ok; vm_compute; reflexivity|vm_compute; reflexivity].
  - exists (ex_dir_file ex_short_root). eexists. split; [apply bytes_okb_ok; vm_compute; reflexivity|]. split; [vm_compute; reflexivity|vm_compute; reflexivity].
  - exists ex_dir, ex_huge_dev. eexists. split; [apply ex_dir_bytes|]. split; [apply bytes_okb_ok; vm_compute; reflexivity|]. split; [split; constructor|].
    split; [vm_compute; reflexivity|vm_compute; reflexivity].
  - exists ex_unordered_node. eexists. split; [apply bytes_okb_ok; vm_compute; reflexivity|]. split; [vm_compute; reflexivity|vm_compute; reflexivity].
Qed.
Print Assumptions C30_no_panic_refuted.
Example C30_example : (forall o, In o ex_dir_offs -> o + 22 <= zlen (f_data ex_dir)) /\ roots_ordered (f_data ex_dir) ex_dir_offs /\
  sizes_small 512 (root_record_size ex_dir_root) (ex_dir_alloc ex_dir_img) /\
  no_short_entry (index_child 512 ex_dir_root (ex_dir_alloc ex_dir_img)) (root_entries ex_dir_root).
Proof.
  split. { intros o [<-|[<-|[]]]; vm_compute; discriminate. }
  split. { intros o root [<-|[<-|[]]] Ht (_ & ->) _; [vm_compute; discriminate|exfalso; vm_compute in Ht; discriminate]. }
  split; [exact ex_dir_sizes|exact ex_dir_long].
Qed.

(** ** C40. Index records by VCN *)
(** [f]'s attribute at [o] is non-resident with the content [alloc]. [q] is where record [vcn] starts in it. *)
Theorem C40_record_from_vcn : forall nt img f o alloc size vcn fuel d, bytes_ok img -> bytes_ok (f_data f) -> 0 <= o -> attr_fits (f_data f) o ->
  ~ attr_resident_at (f_data f) o -> attr_content (cluster_size nt) img (f_data f) o alloc -> 1 <= cluster_size nt -> 36 <= size <= U16_MAX ->
  faultless d -> d_img d = img ->
  exists v, attr_value nt (mkAttr f o None) d = (d, Ok v) /\ ia_of_value v = Ok v /\
  let q := vcn * cluster_size nt in
  exists d' r, record_from_vcn fuel nt v size vcn d = (d', r) /\ d_img d' = img /\
  (~ I64_MIN <= q <= I64_MAX -> r = Err (EVcnTooBig vcn)) /\
  (I64_MIN <= q < 0 -> r = Err (EIo InvalidInput)) /\
  (0 <= q <= I64_MAX -> zlen alloc <= q -> r = Err (EVcnOutOfBoundsInIndexAllocation (av_data_position v) vcn)) /\
  (0 <= q <= I64_MAX -> q < zlen alloc < q + size -> r = Err (EIo UnexpectedEof)) /\
  (0 <= q <= I64_MAX -> q + size <= zlen alloc -> index_array_clear (cluster_size nt) size alloc vcn ->
     (forall x, r = Ok x -> index_record_at (cluster_size nt) size alloc vcn (rec_data x)) /\
     (forall data, index_record_at (cluster_size nt) size alloc vcn data -> exists p, r = Ok (mkRecord data p)) /\
     (24 + field 4 alloc (q + 28) <= U32_MAX -> 24 + field 4 alloc (q + 32) <= U32_MAX -> returns r)).
Proof. exact allocation_record. Qed.
Print Assumptions C40_record_from_vcn.
Example C40_example : attr_fits (f_data ex_dir) 240 /\ ~ attr_resident_at (f_data ex_dir) 240 /\
  attr_content 512 ex_dir_img (f_data ex_dir) 240 (ex_dir_alloc ex_dir_img) /\
  index_record_at 512 1024 (ex_dir_alloc ex_dir_img) 2 (ex_node_data ex_dir_node2) /\ index_array_clear 512 1024 (ex_dir_alloc ex_dir_img) 2.
Proof.
  split; [apply fits_dec; vm_compute; reflexivity|]. split; [vm_compute; discriminate|]. split.
  - apply (ac_nonresident 512 ex_dir_img (f_data ex_dir) 240 ex_dir_extents); try (vm_compute; discriminate).
    + apply ex_valid. vm_compute. reflexivity.
    + match goal with |- encodes _ _ ?x => replace x with [17; 4; 2; 0; 0; 0; 0; 0] by (vm_compute; reflexivity) end. apply ex_encodes.
  - change 1024 with (root_record_size ex_dir_root). split; apply ex_dir_child2.
Qed.
(** The record also carries its position on the device. *)
Theorem C40_record_position : forall nt img f o l size vcn fuel d, bytes_ok img -> bytes_ok (f_data f) -> 0 <= o -> attr_fits (f_data f) o ->
  ~ attr_resident_at (f_data f) o -> o + 56 <= zlen (f_data f) -> field 2 (f_data f) (o + 32) <= attr_len_at (f_data f) o ->
  valid_extents (cluster_size nt) img l -> encodes 0 l (slice (f_data f) (o + field 2 (f_data f) (o + 32)) (o + attr_len_at (f_data f) o)) ->
  field 8 (f_data f) (o + 48) <= extents_size (cluster_size nt) l -> 36 <= size <= U16_MAX -> faultless d -> d_img d = img ->
  forall v d' r, attr_value nt (mkAttr f o None) d = (d, Ok v) -> record_from_vcn fuel nt v size vcn d = (d', Ok r) ->
  rec_position r = disk_position (cluster_size nt) l (vcn * cluster_size nt).
Proof. exact allocation_record_position. Qed.
Print Assumptions C40_record_position.

(** ** C49. All index records in sequence *)
(** [f]'s attribute at [o] is non-resident with the extents [l] and the content [alloc]. The iterator returns the index records [rs] of
    [records_walk] - their bytes, repaired, and their positions on the device - and then for ever [None], or, if it got to a place where no index record
    is stored, the same error. *)
Theorem C49_index_records : forall nt img f o l size fuel d, bytes_ok img -> bytes_ok (f_data f) -> 0 <= o -> attr_fits (f_data f) o ->
  ~ attr_resident_at (f_data f) o -> o + 56 <= zlen (f_data f) -> field 2 (f_data f) (o + 32) <= attr_len_at (f_data f) o ->
  valid_extents (cluster_size nt) img l -> encodes 0 l (slice (f_data f) (o + field 2 (f_data f) (o + 32)) (o + attr_len_at (f_data f) o)) ->
  field 8 (f_data f) (o + 48) <= extents_size (cluster_size nt) l -> 36 <= size <= U16_MAX -> faultless d -> d_img d = img ->
  let alloc := file_content (cluster_size nt) img l (field 8 (f_data f) (o + 48)) in
  all_arrays_clear size alloc ->
  exists v, attr_value nt (mkAttr f o None) d = (d, Ok v) /\ ia_of_value v = Ok v /\
  exists rs c x, records_walk size alloc 0 rs c /\ (all_sizes_small size alloc -> exists e, x = Err e) /\
    forall n, iterate (with_dev (index_records_next fuel size)) (length rs + n) (v, d) =
      map (fun qd => Some (Ok (mkRecord (snd qd) (disk_position (cluster_size nt) l (fst qd))))) rs ++ repeat (if c then None else Some x) n.
Proof. exact allocation_records. Qed.
Print Assumptions C49_index_records.
(** There is only one such walk. *)
Theorem C49_walk_unique : forall size alloc q rs c rs' c', bytes_ok alloc -> records_walk size alloc q rs c -> records_walk size alloc q rs' c' -> rs = rs' /\ c = c'.
Proof. intros size alloc q rs c rs' c' Hb W W'. exact (records_walk_fun size alloc q rs c Hb W rs' c' W'). Qed.
Print Assumptions C49_walk_unique.
(** The directory of the other examples: two index records of 1024 bytes. *)
Example C49_example : attr_fits (f_data ex_dir) 240 /\ ~ attr_resident_at (f_data ex_dir) 240 /\ 240 + 56 <= zlen (f_data ex_dir) /\
  valid_extents 512 ex_dir_img ex_dir_extents /\
  encodes 0 ex_dir_extents (slice (f_data ex_dir) (240 + field 2 (f_data ex_dir) (240 + 32)) (240 + attr_len_at (f_data ex_dir) 240)) /\
  field 8 (f_data ex_dir) (240 + 48) = 2048 /\ ex_dir_alloc ex_dir_img = file_content 512 ex_dir_img ex_dir_extents 2048 /\
  all_arrays_clear 1024 (ex_dir_alloc ex_dir_img) /\ all_sizes_small 1024 (ex_dir_alloc ex_dir_img) /\
  records_walk 1024 (ex_dir_alloc ex_dir_img) 0 [(0, ex_node_data ex_dir_node0); (1024, ex_node_data ex_dir_node2)] true.
Proof.
  split; [apply fits_dec; vm_compute; reflexivity|]. split; [vm_compute; discriminate|]. split; [vm_compute; discriminate|].
  split; [apply ex_valid; vm_compute; reflexivity|].
  split. { match goal with |- encodes _ _ ?x => replace x with [17; 4; 2; 0; 0; 0; 0; 0] by (vm_compute; reflexivity) end. apply ex_encodes. }
  split; [vm_compute; reflexivity|]. split; [reflexivity|].
  assert (Hq : forall q, 0 <= q -> q mod 1024 = 0 -> q + 1024 <= zlen (ex_dir_alloc ex_dir_img) -> q = 0 \/ q = 1024).
  { intros q H1 H2 H3. rewrite ex_dir_alloc_len in H3. apply Z.mod_divide in H2 as (k & ->); lia. }
  split. { intros q H1 H2 H3. destruct (Hq q H1 H2 H3) as [->| ->]; [apply (ex_dir_clear 0)|apply (ex_dir_clear 2)]; vm_compute; discriminate. }
  split. { intros q H1 H2 H3. destruct (Hq q H1 H2 H3) as [->| ->]; vm_compute; split; discriminate. }
  destruct ex_dir_child0 as ([_ S0 O0 _] & _). destruct ex_dir_child2 as ([_ S2 O2 _] & _).
  apply rw_record; [vm_compute; reflexivity| |].
  - split; [vm_compute; discriminate|]. split; auto.
  - apply rw_record; [vm_compute; reflexivity| |apply rw_end; vm_compute; discriminate].
    split; [vm_compute; discriminate|]. split; auto.
Qed.
