(** * C47, C48: header accessors, [read_exact] over any reader. *)
From Verif Require Import Base Dev Types Record DataRuns Stream NonResident Resident Attribute File Structured AttrList Index
  Spec SpecIndex SpecMisc BaseProofs AttributeProofs FileProofs AccessProofs ExactProofs FileExamples IndexExamples.

(** C47. Every file record that was accepted, whatever it contains: the accessors return the fields at their places in the
    record header, flags only the two known ones. *)
Theorem C47_file_record : forall prot p n f, bytes_ok prot -> file_of_bytes prot p n = Ok f ->
  let data := f_data f in
  f_number f = n /\ f_position f = p /\
  f_sequence_number f = Ok (field 2 data 16) /\ f_hard_link_count f = Ok (field 2 data 18) /\
  f_data_size f = Ok (field 4 data 24) /\ f_allocated_size f = Ok (field 4 data 28) /\
  (exists fl, f_flags f = Ok fl /\ forall i, 0 <= i -> Z.testbit fl i = Z.testbit (field 2 data 22) i && existsb (Z.eqb i) [0; 1]) /\
  f_is_directory f = Ok (Z.testbit (field 2 data 22) 1) /\
  field 4 data 24 <= field 4 data 28 <= zlen data.
Proof. exact file_accessors. Qed.
Print Assumptions C47_file_record.

(** Every attribute that the iterators return (see C18: they all fit). *)
Theorem C47_attribute : forall f off e, bytes_ok (f_data f) -> 0 <= off -> attr_fits (f_data f) off ->
  let a := mkAttr f off e in let data := f_data f in
  attr_length a = Ok (field 4 data (off + 4)) /\ attr_is_resident a = Ok (field 1 data (off + 8) =? 0) /\
  attr_name_length a = Ok (2 * field 1 data (off + 9)) /\ attr_instance a = Ok (field 2 data (off + 14)) /\
  (exists fl, attr_flags a = Ok fl /\ forall i, 0 <= i -> Z.testbit fl i = Z.testbit (field 2 data (off + 12)) i && existsb (Z.eqb i) [0; 14; 15]) /\
  (type_known (field 4 data off) -> attr_ty a = Ok (field 4 data off)) /\
  (~ type_known (field 4 data off) -> attr_ty a = Err (EUnsupportedAttributeType (attr_position a) (field 4 data off))) /\
  (field 1 data (off + 8) = 0 -> off + 20 <= zlen data -> attr_value_length a = Ok (field 4 data (off + 16))) /\
  (field 1 data (off + 8) <> 0 -> off + 56 <= zlen data -> attr_value_length a = Ok (field 8 data (off + 48))).
Proof. exact attribute_accessors. Qed.
Print Assumptions C47_attribute.
(** ... whose position is that of the record plus its offset. *)
Theorem C47_attribute_position : forall f off e p, f_position f = Some p -> 0 < p -> 0 <= off -> p + off <= U64_MAX ->
  attr_position (mkAttr f off e) = Some (p + off).
Proof. exact attribute_position_at. Qed.
Print Assumptions C47_attribute_position.

(** Every index entry made of the bytes [s] that is at least as long as its header. [parse] is the function that makes sense of the key or data. *)
Theorem C47_index_entry : forall D (parse : list Z -> position -> res D) s p e, bytes_ok s -> ie_new s p = Ok e -> 16 <= field 2 s 8 ->
  let len := field 2 s 8 in
  ie_length e = Ok len /\ zlen (ie_slice e) = len /\ ie_position e = p /\ ie_key_length e = Ok (field 2 s 10) /\
  (exists fl, ie_flags e = Ok fl /\ forall i, 0 <= i -> Z.testbit fl i = Z.testbit (field 1 s 12) i && existsb (Z.eqb i) [0; 1]) /\
  ie_file_reference e = Ok (slice s 0 8) /\ ie_data_length e = Ok (field 2 s 2) /\
  (let o := field 2 s 0 in let l := field 2 s 2 in
   (o = 0 \/ l = 0 -> ie_data parse e = None) /\
   (o <> 0 -> l <> 0 -> o + l <= len -> ie_data parse e = Some (parse (slice s o (o + l)) (pos_add p o))) /\
   (o <> 0 -> l <> 0 -> len < o + l -> exists x, ie_data parse e = Some (Err x))) /\
  (let kl := field 2 s 10 in
   (kl = 0 \/ Z.testbit (field 1 s 12) 1 = true -> ie_key parse e = None) /\
   (kl <> 0 -> Z.testbit (field 1 s 12) 1 = false -> 16 + kl <= len -> ie_key parse e = Some (parse (slice s 16 (16 + kl)) (pos_add p 16))) /\
   (kl <> 0 -> Z.testbit (field 1 s 12) 1 = false -> len < 16 + kl -> exists x, ie_key parse e = Some (Err x))) /\
  (Z.testbit (field 1 s 12) 0 = false -> ie_subnode_vcn e = None) /\
  (Z.testbit (field 1 s 12) 0 = true -> 24 <= len -> ie_subnode_vcn e = Some (Ok (to_i64 (field 8 s (len - 8))))) /\
  (Z.testbit (field 1 s 12) 0 = true -> len < 24 -> exists x, ie_subnode_vcn e = Some (Err x)).
Proof. exact @entry_accessors. Qed.
Print Assumptions C47_index_entry.
(** [to_file] of an index entry opens the file whose number is in the first 6 bytes of the entry. *)
Theorem C47_entry_to_file : forall nt s p e d, bytes_ok s -> ie_new s p = Ok e -> 16 <= field 2 s 8 ->
  ie_to_file nt e d = ntfs_file nt (field 6 s 0) d.
Proof. exact entry_to_file. Qed.
Print Assumptions C47_entry_to_file.

(** Index roots and index records. *)
Theorem C47_index_nodes : forall data p,
  (32 <= zlen data -> let r := mkIR data p in
   ir_data_size r = Ok (field 4 data 20) /\ ir_allocated_size r = Ok (field 4 data 24) /\ ir_record_size r = Ok (field 4 data 8) /\
   ir_is_large r = Ok (Z.testbit (field 1 data 28) 0)) /\
  (40 <= zlen data -> let r := mkRecord data p in
   irec_vcn r = Ok (to_i64 (field 8 data 16)) /\ irec_data_size r = Ok (field 4 data 28) /\ irec_allocated_size r = Ok (field 4 data 32) /\
   irec_has_subnodes r = Ok (Z.testbit (field 1 data 36) 0)).
Proof. exact node_accessors. Qed.
Print Assumptions C47_index_nodes.

Example C47_example : bytes_ok (ex_record ex_attrs) /\ file_of_bytes (ex_record ex_attrs) (Some 4096) 40 = Ok ex_file /\
  f_flags ex_file = Ok 1 /\ f_sequence_number ex_file = Ok 1 /\ attr_fits (f_data ex_file) 120 /\ attr_instance (mkAttr ex_file 120 None) = Ok 4 /\
  (let s := ex_entry 31 1 (ex_key 66) (ex_vcn 2) in bytes_ok s /\ 24 <= field 2 s 8 /\
    exists e, ie_new s (Some 5000) = Ok e /\ ie_subnode_vcn e = Some (Ok 2) /\ ie_file_reference e = Ok [31; 0; 0; 0; 0; 0; 1; 0]).
Proof.
  split; [apply bytes_okb_ok; vm_compute; reflexivity|]. split; [exact ex_file_ok|]. split; [vm_compute; reflexivity|]. split; [vm_compute; reflexivity|].
  split; [apply fits_dec; vm_compute; reflexivity|]. split; [vm_compute; reflexivity|]. cbn zeta. split; [apply bytes_okb_ok; vm_compute; reflexivity|].
  split; [vm_compute; discriminate|]. eexists. split; [vm_compute; reflexivity|]. split; vm_compute; reflexivity.
Qed.

(** C48. [rs_read_exact_loop] with an empty accumulator is [read_exact]; it needs at most one iteration per byte and per interruption. *)
Theorem C48_read_exact : forall S (read : S -> Z -> dev -> dev * (S * res (list Z))) I posf left content,
  conforming read I posf left content ->
  forall fuel s d n, I s d -> 0 <= posf s d -> 0 <= n -> (Z.to_nat n + left s d < fuel)%nat ->
  exists d' s' r, rs_read_exact_loop read fuel s n [] d = (d', (s', r)) /\
    ((r = Ok (slice content (posf s d) (posf s d + n)) /\ (0 < n -> posf s d + n <= zlen content) /\ posf s' d' = posf s d + n /\ I s' d') \/
     (r = Err (EIo UnexpectedEof) /\ zlen content < posf s d + n /\ 0 < n) \/
     (exists e, r = Err e /\ e <> EIo Interrupted /\ exists s1 d1 n1, I s1 d1 /\ 0 < n1 <= n /\ snd (snd (read s1 n1 d1)) = Err e)).
Proof. intros S read I posf left content C fuel s d n. exact (read_exact_conforming_acc read I posf left content C fuel s d n []). Qed.
Print Assumptions C48_read_exact.
(** The filesystem reader of the model conforms, whatever its schedule of short reads, interruptions and failures. *)
Example C48_example : (forall img, conforming raw_read (fun _ d => d_img d = img /\ 0 <= d_pos d) (fun _ d => d_pos d) (fun _ d => length (d_reads d)) img) /\
  snd (snd (rs_read_exact_loop raw_read 20 tt 5 [] (mkDev [1; 2; 3; 4; 5; 6] 1 [RShort 0; RErr Interrupted; RShort 1; RErr Interrupted; RErr Interrupted] []))) = Ok [2; 3; 4; 5; 6].
Proof. split; [exact raw_conforming|vm_compute; reflexivity]. Qed.
