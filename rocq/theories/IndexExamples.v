(** * Concrete directories for the examples and counterexamples of PropsIndex.v. *)
From Verif Require Import Base Dev Types Record DataRuns Stream NonResident Resident Attribute File Structured AttrList Upcase Index
  Spec SpecValues SpecMisc SpecIndex BaseProofs ReaderProofs RecordProofs NonResidentProofs AttributeProofs FileProofs StructuredProofs ValueProofs AttrListProofs
  NodeProofs IndexRecordProofs IndexProofs DirectoryProofs IndexTotalProofs DirTotalProofs CycleProofs NameFindProofs IndexClaims StreamExamples FileExamples ValueExamples.

(** An entry with a $FILE_NAME key for a name of one unit (or no key), padded to 8 bytes, and 8 bytes of subnode number or none. *)
Definition ex_key (c : Z) : list Z := zrepeat 0 64 ++ [1; 1; c; 0].
Definition ex_entry (ref flags : Z) (key sub : list Z) : list Z :=
  let body := key ++ zrepeat 0 (- zlen key mod 8) in
  [ref; 0; 0; 0; 0; 0; 1; 0; 16 + zlen body + zlen sub; 0; zlen key; 0; flags; 0; 0; 0] ++ body ++ sub.
Definition ex_vcn (v : Z) : list Z := [v; 0; 0; 0; 0; 0; 0; 0].
(** An index record of 1024 bytes as stored on disk. *)
Definition ex_irec (vcn : Z) (entries : list Z) : list Z :=
  let used := 40 + zlen entries in
  let body := [73; 78; 68; 88; 40; 0; 3; 0] ++ zrepeat 0 8 ++ ex_vcn vcn ++ [40; 0; 0; 0; used mod 256; used / 256; 0; 0; 232; 3; 0; 0; 0; 0; 0; 0] ++
    [7; 7] ++ zrepeat 0 22 ++ entries in
  let full := body ++ zrepeat 0 (1024 - zlen body) in
  ztake 510 full ++ [7; 7] ++ slice full 512 1022 ++ [7; 7].
(** An $INDEX_ROOT value for index records of 1024 bytes. *)
Definition ex_root (large : Z) (entries : list Z) : list Z :=
  let used := 16 + zlen entries in
  [48; 0; 0; 0; 1; 0; 0; 0; 0; 4; 0; 0; 2; 0; 0; 0; 16; 0; 0; 0; used; 0; 0; 0; used; 0; 0; 0; large; 0; 0; 0] ++ entries.
Definition ex_i30 : list Z := [36; 0; 73; 0; 51; 0; 48; 0].
(** $INDEX_ALLOCATION: 2048 bytes in four clusters of 512 bytes from cluster 2 on. *)
Definition ex_alloc_attr : list Z :=
  [160; 0; 0; 0; 80; 0; 0; 0; 1; 4; 64; 0; 0; 0; 3; 0] ++ zrepeat 0 16 ++ [72; 0; 0; 0; 0; 0; 0; 0] ++ zrepeat 0 8 ++ [0; 8; 0; 0; 0; 0; 0; 0] ++ zrepeat 0 8 ++
  ex_i30 ++ [17; 4; 2; 0; 0; 0; 0; 0].
Definition ex_dir_record (root : list Z) : list Z :=
  let body := [70; 73; 76; 69; 48; 0; 3; 0] ++ zrepeat 0 8 ++ [1; 0; 1; 0; 56; 0; 3; 0; 0; 2; 0; 0; 0; 4; 0; 0] ++ zrepeat 0 16 ++
    [7; 7; 0; 0; 0; 0; 0; 0] ++ ex_resident 144 2 ex_i30 root ++ ex_alloc_attr ++ [255; 255; 255; 255] in
  let full := body ++ zrepeat 0 (1024 - zlen body) in
  ztake 510 full ++ [7; 7] ++ slice full 512 1022 ++ [7; 7].
Definition ex_dir_file (root : list Z) : file := match file_of_bytes (ex_dir_record root) (Some 65536) 5 with Ok f => f | _ => mkFile (mkRecord [] None) 0 end.

(** A directory with "a" in record 0, "B" in the root and "c" in record 2. *)
Definition ex_dir_root : list Z := ex_root 1 (ex_entry 31 1 (ex_key 66) (ex_vcn 0) ++ ex_entry 0 3 [] (ex_vcn 2)).
Definition ex_dir_node0 : list Z := ex_irec 0 (ex_entry 30 0 (ex_key 97) [] ++ ex_entry 0 2 [] []).
Definition ex_dir_node2 : list Z := ex_irec 2 (ex_entry 32 0 (ex_key 99) [] ++ ex_entry 0 2 [] []).
Definition ex_dir_img : list Z := zrepeat 0 1024 ++ ex_dir_node0 ++ ex_dir_node2.
Definition ex_dir : file := ex_dir_file ex_dir_root.
Definition ex_dir_offs : list Z := [56; 56 + 32 + zlen ex_dir_root].
Definition ex_dir_list : list (list Z) := [ex_entry 30 0 (ex_key 97) []; ex_entry 31 1 (ex_key 66) (ex_vcn 0); ex_entry 32 0 (ex_key 99) []].
Fixpoint ex_upcase (n : nat) (c : Z) : list Z := match n with O => [] | S k => (if (97 <=? c) && (c <=? 122) then c - 32 else c) :: ex_upcase k (c + 1) end.
Definition ex_dir_table : list Z := ex_upcase (Z.to_nat 65536) 0.
Definition ex_dir_ntfs : ntfs := mkNtfs 512 512 65536 (Some 8192) 1024 7 (Some ex_dir_table).
Definition ex_dir_dev : dev := mkDev ex_dir_img 0 [RShort 100; RShort 3] [].

Definition ex_dir_extents : list extent := [mkExtent (Some 2) 4].
Definition ex_dir_alloc (img : list Z) : list Z := file_content 512 img ex_dir_extents 2048.

Lemma ex_i30_units : utf16 ex_i30 I30.
Proof. apply (utf16_unit 36 0), (utf16_unit 73 0), (utf16_unit 51 0), (utf16_unit 48 0). constructor. Qed.

Lemma ex_valid img : zlen img = 3072 -> valid_extents 512 img ex_dir_extents.
Proof.
  intros L. split; [lia|rewrite L; vm_compute; discriminate| | |].
  - apply Forall_cons; [|apply Forall_nil]. vm_compute. intuition (try discriminate).
  - apply Forall_cons; [|apply Forall_nil]. unfold extent_on_device. cbn. rewrite L. intuition lia.
  - vm_compute. intuition discriminate.
Qed.
Lemma ex_encodes : encodes 0 ex_dir_extents [17; 4; 2; 0; 0; 0; 0; 0].
Proof. apply (enc_data 0 2 4 [4] [2] [] [0; 0; 0; 0; 0]); [apply ubytes1, byte1; lia|apply sbytes1; lia|constructor]. Qed.

(** A file record with such a root value is a directory, by computation. *)
Ltac name_at := right; split; [|split; [|split]]; vm_compute; [discriminate|discriminate|discriminate|reflexivity].
Ltac is_dir o2 :=
  split; [vm_compute; reflexivity| |split; [|split; [|split]]; vm_compute; (discriminate || reflexivity)| |intros _; vm_compute; split; discriminate];
  [exists 56; split; [exists [], [o2]; split; [reflexivity|]; split; [apply Forall_nil|]; split; [vm_compute; reflexivity|]; split; [discriminate|];
     intros n E; assert (n = I30) by congruence; subst n; exists ex_i30; split; [name_at|apply ex_i30_units]|
     split; [vm_compute; reflexivity|]; split; [vm_compute; discriminate|]; split; vm_compute; [discriminate|reflexivity]]
  |match goal with |- if root_is_large ?r then _ else _ => change (root_is_large r) with true end; cbv iota;
   exists o2, ex_dir_extents;
   split; [exists [56], []; split; [reflexivity|]; split; [apply Forall_cons; [split; [vm_compute; tauto|left; vm_compute; discriminate]|apply Forall_nil]|];
     split; [vm_compute; reflexivity|]; split; [discriminate|]; intros n E; assert (n = I30) by congruence; subst n; exists ex_i30; split; [name_at|apply ex_i30_units]|];
   split; [vm_compute; discriminate|]; split; [vm_compute; discriminate|]; split; [vm_compute; discriminate|];
   split; [apply ex_valid; vm_compute; reflexivity|]; split; [match goal with |- encodes _ _ ?x => change x with [17; 4; 2; 0; 0; 0; 0; 0] end; apply ex_encodes|];
   split; [vm_compute; discriminate|reflexivity]].

Lemma ex_dir_is_directory : is_directory 512 ex_dir_img (f_data ex_dir) ex_dir_offs ex_dir_root (ex_dir_alloc ex_dir_img).
Proof. is_dir 240. Qed.

(** Index records, by computation. *)
Definition ex_node_data (prot : list Z) : list Z := match irec_of_bytes prot None with Ok r => rec_data r | _ => [] end.
Lemma ex_child img root vcn prot : slice (ex_dir_alloc img) (vcn * 512) (vcn * 512 + 1024) = prot -> bytes_ok prot ->
  root_record_size root = 1024 -> 0 <= vcn -> vcn * 512 + 1024 <= zlen (ex_dir_alloc img) -> zlen (ex_dir_alloc img) <= I64_MAX -> zlen prot = 1024 ->
  field 2 prot 4 = 40 -> field 2 prot 6 - 1 = 2 -> irec_of_bytes prot None = Ok (mkRecord (ex_node_data prot) None) ->
  field 8 (ex_node_data prot) 16 = vcn -> index_child 512 root (ex_dir_alloc img) vcn (ex_node_data prot).
Proof.
  intros E Hb R V1 V2 V3 L F4 F6 O V.
  assert (C : array_clear (field 2 prot 4) (field 2 prot 6 - 1)).
  { rewrite F4, F6. intros k Hk (i & Hi & Hk'). unfold block_end in Hk'. lia. }
  destruct (proj1 (irec_of_bytes_spec prot None Hb ltac:(rewrite L; vm_compute; split; discriminate) C _) O) as (data & E1 & S & K).
  assert (E2 : data = ex_node_data prot) by congruence. subst data.
  split; [|split; [|lia]]; rewrite ?R.
  - split; [lia|rewrite E; exact S|exact K|exact V].
  - unfold index_array_clear. rewrite E. exact C.
Qed.
Ltac child_at := apply ex_child; try (vm_compute; reflexivity || vm_compute; discriminate); apply bytes_okb_ok; vm_compute; reflexivity.

Lemma ex_dir_child0 : index_child 512 ex_dir_root (ex_dir_alloc ex_dir_img) 0 (ex_node_data ex_dir_node0).
Proof. child_at. Qed.
Lemma ex_dir_child2 : index_child 512 ex_dir_root (ex_dir_alloc ex_dir_img) 2 (ex_node_data ex_dir_node2).
Proof. child_at. Qed.

Ltac entry_is := match goal with
  | |- entry_fits _ _ => split; vm_compute; discriminate
  | |- _ = _ => vm_compute; reflexivity
  | |- _ <= _ => vm_compute; discriminate
  | |- _ < _ => vm_compute; reflexivity
  end.
Lemma ex_dir_listing : index_listing 512 ex_dir_root (ex_dir_alloc ex_dir_img) ex_dir_list.
Proof.
  unfold index_listing.
  replace ex_dir_list with ([ex_entry 30 0 (ex_key 97) []] ++ entry_bytes (root_entries ex_dir_root) 0 :: [ex_entry 32 0 (ex_key 99) []])
    by (vm_compute; reflexivity).
  apply li_entry; try entry_is.
  - apply (sl_node _ _ _ 0 (ex_node_data ex_dir_node0)); try entry_is; [apply ex_dir_child0|].
    replace [ex_entry 30 0 (ex_key 97) []] with ([] ++ entry_bytes (ex_node_data ex_dir_node0) 64 :: []) by (vm_compute; reflexivity).
    replace (24 + field 4 (ex_node_data ex_dir_node0) 24) with 64 by (vm_compute; reflexivity). apply li_entry; try entry_is; [apply sl_none; vm_compute; reflexivity|].
    apply li_last; try entry_is. apply sl_none; vm_compute; reflexivity.
  - apply li_last; try entry_is. apply (sl_node _ _ _ 2 (ex_node_data ex_dir_node2)); try entry_is; [apply ex_dir_child2|].
    replace [ex_entry 32 0 (ex_key 99) []] with ([] ++ entry_bytes (ex_node_data ex_dir_node2) 64 :: []) by (vm_compute; reflexivity).
    replace (24 + field 4 (ex_node_data ex_dir_node2) 24) with 64 by (vm_compute; reflexivity). apply li_entry; try entry_is; [apply sl_none; vm_compute; reflexivity|].
    apply li_last; try entry_is. apply sl_none; vm_compute; reflexivity.
Qed.

Lemma ex_dir_bytes : bytes_ok ex_dir_img /\ bytes_ok (f_data ex_dir) /\ 24 <= zlen (f_data ex_dir).
Proof. split; [|split]; [apply bytes_okb_ok; vm_compute; reflexivity|apply bytes_okb_ok; vm_compute; reflexivity|vm_compute; discriminate]. Qed.
Lemma ex_dir_walk : attr_walk (f_data ex_dir) (field 2 (f_data ex_dir) 20) ex_dir_offs true.
Proof. apply walkb_ok. vm_compute. reflexivity. Qed.

(** The entries of a node, by computation. *)
Fixpoint node_offs (fuel : nat) (data : list Z) (stop o : Z) : option (list Z * node_end) :=
  match fuel with
  | O => None
  | S k =>
      if stop <=? o then Some ([], NodeDone)
      else if negb ((o + 16 <=? zlen data) && (o + entry_len data o <=? zlen data)) then Some ([], NodeMalformed)
      else if entry_len data o <? 13 then Some ([], NodeTooShort)
      else if entry_is_last data o then Some ([o], NodeDone)
      else match node_offs k data stop (o + entry_len data o) with Some (l, e) => Some (o :: l, e) | None => None end
  end.
Lemma node_offs_ok fuel data stop : forall o l e, node_offs fuel data stop o = Some (l, e) -> node_walk data stop o l e.
Proof.
  induction fuel as [|fuel IH]; intros o l e; cbn [node_offs]; [discriminate|].
  destruct (stop <=? o) eqn:E1; [intros [= <- <-]; apply nw_end; lia|].
  destruct ((o + 16 <=? zlen data) && (o + entry_len data o <=? zlen data)) eqn:E2; cbn [negb].
  - assert (F : entry_fits data o) by (unfold entry_fits; lia). destruct (entry_len data o <? 13) eqn:E3; [intros [= <- <-]; apply nw_short; auto; lia|].
    destruct (entry_is_last data o) eqn:E4; [intros [= <- <-]; apply nw_last; auto; lia|].
    destruct (node_offs fuel data stop (o + entry_len data o)) as [[l' e']|] eqn:E5; [|discriminate]. intros [= <- <-]. apply nw_entry; auto; lia.
  - intros [= <- <-]. apply nw_bad; [lia|]. unfold entry_fits. lia.
Qed.

(** The records of such an allocation of 2048 bytes with nothing like a record at 512. *)
Lemma ex_children img root vcn data : bytes_ok (ex_dir_alloc img) -> zlen (ex_dir_alloc img) = 2048 -> root_record_size root = 1024 ->
  slice (ex_dir_alloc img) 512 516 = [0; 0; 0; 0] ->
  index_child 512 root (ex_dir_alloc img) vcn data -> vcn = 0 \/ vcn = 2.
Proof.
  intros Hb Hz R S ([[I1 I2] H (Hs & _) _] & _). rewrite Hz, R in *. destruct (Z.eq_dec vcn 1) as [->|]; [|lia]. exfalso.
  rewrite (stored_signature _ _ H) in Hs. rewrite slice_slice in Hs by lia. cbn [Z.mul Z.add Pos.mul Pos.add] in Hs. rewrite S in Hs. discriminate.
Qed.
Lemma ex_clear img : zlen (ex_dir_alloc img) = 2048 ->
  (forall v, v = 0 \/ v = 1 \/ v = 2 -> let prot := slice (ex_dir_alloc img) (v * 512) (v * 512 + 1024) in
     field 2 prot 4 = 40 /\ field 2 prot 6 = 3 \/ field 2 prot 4 = 0 /\ field 2 prot 6 = 0) ->
  arrays_clear 512 1024 (ex_dir_alloc img).
Proof.
  intros Hz H vcn H1 H2. unfold index_array_clear. rewrite Hz in H2.
  destruct (H vcn ltac:(lia)) as [(-> & ->)|(-> & ->)]; intros k Hk (i & Hi & Hk'); unfold block_end in *; lia.
Qed.

Lemma ex_alloc_bytes img : bytes_ok img -> bytes_ok (ex_dir_alloc img).
Proof. intros. now apply bytes_ok_content. Qed.
Lemma ex_dir_alloc_len : zlen (ex_dir_alloc ex_dir_img) = 2048. Proof. vm_compute. reflexivity. Qed.
Lemma ex_dir_clear : arrays_clear 512 (root_record_size ex_dir_root) (ex_dir_alloc ex_dir_img).
Proof.
  change (root_record_size ex_dir_root) with 1024. apply ex_clear; [vm_compute; reflexivity|].
  intros v [->|[->| ->]]; [left|right|left]; split; vm_compute; reflexivity.
Qed.
Lemma ex_dir_sizes : sizes_small 512 (root_record_size ex_dir_root) (ex_dir_alloc ex_dir_img).
Proof.
  change (root_record_size ex_dir_root) with 1024. intros vcn H1 H2. rewrite ex_dir_alloc_len in H2.
  assert (H : vcn = 0 \/ vcn = 1 \/ vcn = 2) by lia. destruct H as [->|[->| ->]]; split; vm_compute; discriminate.
Qed.
Lemma ex_dir_children vcn data : index_child 512 ex_dir_root (ex_dir_alloc ex_dir_img) vcn data ->
  vcn = 0 /\ data = ex_node_data ex_dir_node0 \/ vcn = 2 /\ data = ex_node_data ex_dir_node2.
Proof.
  intros H. assert (Hb : bytes_ok (ex_dir_alloc ex_dir_img)) by apply ex_alloc_bytes, ex_dir_bytes.
  destruct (ex_children ex_dir_img ex_dir_root vcn data Hb ex_dir_alloc_len ltac:(vm_compute; reflexivity) ltac:(vm_compute; reflexivity) H) as [->| ->]; [left|right]; split; auto.
  - exact (index_child_fun _ _ _ _ _ _ Hb H ex_dir_child0).
  - exact (index_child_fun _ _ _ _ _ _ Hb H ex_dir_child2).
Qed.
Lemma ex_walk0 : node_walk (ex_node_data ex_dir_node0) (24 + field 4 (ex_node_data ex_dir_node0) 28) (24 + field 4 (ex_node_data ex_dir_node0) 24) [64; 152] NodeDone.
Proof. apply (node_offs_ok 10). vm_compute. reflexivity. Qed.
Lemma ex_walk2 : node_walk (ex_node_data ex_dir_node2) (24 + field 4 (ex_node_data ex_dir_node2) 28) (24 + field 4 (ex_node_data ex_dir_node2) 24) [64; 152] NodeDone.
Proof. apply (node_offs_ok 10). vm_compute. reflexivity. Qed.
Lemma ex_dir_acyclic : acyclic (index_child 512 ex_dir_root (ex_dir_alloc ex_dir_img)).
Proof.
  exists (fun _ => O). intros vcn data offs e o vcn' data' Hc W Ho (Hr & _) _. exfalso.
  destruct (ex_dir_children _ _ Hc) as [(_ & ->)|(_ & ->)];
  [destruct (node_walk_fun _ _ _ _ _ _ _ W ex_walk0) as (-> & _)|destruct (node_walk_fun _ _ _ _ _ _ _ W ex_walk2) as (-> & _)];
  destruct Ho as [<-|[<-|[]]]; vm_compute in Hr; discriminate.
Qed.
Lemma ex_dir_long : no_short_entry (index_child 512 ex_dir_root (ex_dir_alloc ex_dir_img)) (root_entries ex_dir_root).
Proof.
  split.
  - intros offs e W. assert (W' : node_walk (root_entries ex_dir_root) (zlen (root_entries ex_dir_root)) 0 [0; 96] NodeDone) by (apply (node_offs_ok 10); vm_compute; reflexivity).
    destruct (node_walk_fun _ _ _ _ _ _ _ W W') as (_ & ->). discriminate.
  - intros vcn data offs e Hc W. destruct (ex_dir_children _ _ Hc) as [(_ & ->)|(_ & ->)];
    [destruct (node_walk_fun _ _ _ _ _ _ _ W ex_walk0) as (_ & ->)|destruct (node_walk_fun _ _ _ _ _ _ _ W ex_walk2) as (_ & ->)]; discriminate.
Qed.

(** A directory whose index record 0 refers to itself. *)
Definition ex_cyc_root : list Z := ex_root 1 (ex_entry 0 3 [] (ex_vcn 0)).
Definition ex_cyc_node : list Z := ex_irec 0 (ex_entry 0 3 [] (ex_vcn 0)).
Definition ex_cyc_img : list Z := zrepeat 0 1024 ++ ex_cyc_node ++ zrepeat 0 1024.
Definition ex_cyc : file := ex_dir_file ex_cyc_root.
Definition ex_cyc_offs : list Z := [56; 56 + 32 + zlen ex_cyc_root].
Lemma ex_cyc_is_directory : is_directory 512 ex_cyc_img (f_data ex_cyc) ex_cyc_offs ex_cyc_root (ex_dir_alloc ex_cyc_img).
Proof. is_dir 144. Qed.
Lemma ex_cyc_child : index_child 512 ex_cyc_root (ex_dir_alloc ex_cyc_img) 0 (ex_node_data ex_cyc_node).
Proof. child_at. Qed.
Ltac descends_at := split; [vm_compute; reflexivity|]; split; [split; vm_compute; discriminate|]; split; [vm_compute; reflexivity|];
  split; [split; [vm_compute; reflexivity|split; [vm_compute; discriminate|vm_compute; reflexivity]]|vm_compute; discriminate].
Lemma ex_cyc_root_descends : descends (root_entries ex_cyc_root) (zlen (root_entries ex_cyc_root)) 0 0.
Proof. descends_at. Qed.
Lemma ex_cyc_node_descends : descends (ex_node_data ex_cyc_node) (24 + field 4 (ex_node_data ex_cyc_node) 28) (24 + field 4 (ex_node_data ex_cyc_node) 24) 0.
Proof. descends_at. Qed.
Lemma ex_cyc_bytes : bytes_ok ex_cyc_img /\ bytes_ok (f_data ex_cyc) /\ 24 <= zlen (f_data ex_cyc).
Proof. split; [|split]; [apply bytes_okb_ok; vm_compute; reflexivity|apply bytes_okb_ok; vm_compute; reflexivity|vm_compute; discriminate]. Qed.
Lemma ex_cyc_walk : attr_walk (f_data ex_cyc) (field 2 (f_data ex_cyc) 20) ex_cyc_offs true.
Proof. apply walkb_ok. vm_compute. reflexivity. Qed.
