(** * C18-C21, C44: the attributes of a file record. *)
From Verif Require Import Base Dev Types Record DataRuns Stream NonResident Resident Attribute File Spec BaseProofs AttributeProofs FileProofs FileExamples.

(** C18. For every record: iteration visits exactly the attributes of the walk, each inside the record and starting where the
    previous one ended, at most one per 16 bytes; from then on it returns [None] forever, or the same error forever if the
    walk ends at a malformed attribute. *)
Theorem C18_raw_iteration : forall f, bytes_ok (f_data f) -> 22 <= zlen (f_data f) ->
  exists start offs clean e, raw_start f = Ok start /\ start = field 2 (f_data f) 20 /\ attr_walk (f_data f) start offs clean /\
    16 * zlen offs <= zlen (f_data f) /\ Forall (fun o => start <= o /\ attr_fits (f_data f) o) offs /\
    forall n, iterate (raw_next f) (length offs + n) start =
      map (fun o => Some (Ok (mkAttr f o None))) offs ++ repeat (if clean : bool then None else Some (Err e)) n.
Proof. exact raw_iteration. Qed.
Print Assumptions C18_raw_iteration.
Example C18_example : bytes_ok (f_data ex_file) /\ zlen (f_data ex_file) = 1024 /\
  attr_walk (f_data ex_file) (field 2 (f_data ex_file) 20) [56; 88; 120] true.
Proof. split; [apply ex_file_bytes|]. split; [apply ex_file_bytes|exact ex_walk]. Qed.

(** C19. *)
Theorem C19_names : forall f off e, bytes_ok (f_data f) -> 0 <= off -> attr_fits (f_data f) off ->
  (exists bs, attr_name (mkAttr f off e) = Ok bs /\ attr_name_at (f_data f) off bs) \/
  (exists x, attr_name (mkAttr f off e) = Err x /\ forall bs, ~ attr_name_at (f_data f) off bs).
Proof. intros. now apply attr_name_spec. Qed.
Print Assumptions C19_names.
Theorem C19_resident_values : forall f off e, bytes_ok (f_data f) -> 0 <= off -> attr_fits (f_data f) off -> off + 22 <= zlen (f_data f) ->
  (exists bs p, attr_resident_value (mkAttr f off e) = Ok (res_new bs p) /\ attr_value_at (f_data f) off bs) \/
  (exists x, attr_resident_value (mkAttr f off e) = Err x /\ forall bs, ~ attr_value_at (f_data f) off bs).
Proof. intros f off e Hb H1 H2 H3. destruct (attr_resident_value_spec f Hb off e H1 H2 H3) as [(bs & H)|H]; eauto. Qed.
Print Assumptions C19_resident_values.
(** Names and values lie inside the attribute. *)
Theorem C19_inside : forall data off name value, bytes_ok data -> 0 <= off -> attr_fits data off ->
  (attr_name_at data off name -> name = [] \/ exists a b, off <= a <= b /\ b <= off + attr_len_at data off /\ name = slice data a b) /\
  (attr_value_at data off value -> exists a b, off <= a <= b /\ b <= off + attr_len_at data off /\ value = slice data a b).
Proof.
  intros data off name value Hb Ho (H1 & H2 & H3).
  pose proof (field2_bound data (off + 10) Hb). pose proof (field1_bound data (off + 9) Hb).
  pose proof (field2_bound data (off + 20) Hb). pose proof (field4_bound data (off + 16) Hb). split.
  - intros [(_ & ->)|(_ & _ & K & ->)]; [auto|right]. do 2 eexists. split; [|split; [|reflexivity]]; lia.
  - intros (K & ->). do 2 eexists. split; [|split; [|reflexivity]]; lia.
Qed.
Print Assumptions C19_inside.
Example C19_example : attr_fits (f_data ex_file) 120 /\ attr_name (mkAttr ex_file 120 None) = Ok [65; 0; 66; 0] /\
  attr_resident_value (mkAttr ex_file 120 None) = Ok (res_new [9; 8; 7; 6] (Some (4096 + 120))).
Proof. split; [apply fits_dec; vm_compute; reflexivity|]. split; vm_compute; reflexivity. Qed.

(** C20, for attributes whose own header (22 bytes if resident, 56 otherwise) fits into the record.
    Missing: shorter attributes at the end of the record, on which the code panics (C20_short_attribute_refuted). *)
Theorem C20_accessors_partial : forall f cs off e, bytes_ok (f_data f) -> 1 <= cs -> 0 <= off -> attr_fits (f_data f) off ->
  let a := mkAttr f off e in
  (returns (attr_ty a) /\ returns (attr_name a) /\ returns (attr_length a) /\ returns (attr_flags a) /\ returns (attr_instance a) /\
   returns (attr_is_resident a)) /\
  (off + 56 <= zlen (f_data f) \/ attr_resident_at (f_data f) off /\ off + 22 <= zlen (f_data f) ->
   returns (attr_value_simple cs a) /\ returns (attr_value_length a)).
Proof.
  intros f cs off e Hb Hcs Ho Hf a. split.
  - destruct (attr_basic_returns f Hb off e Ho Hf) as (H1 & H2 & (x & H3 & _) & (y & H4) & _ & _ & H7 & H8). fold a in H1, H2, H3, H4, H7, H8.
    rewrite H1, H2, H3, H4. repeat split; auto.
  - intros [H|(Hr & H)]; [apply attr_value_returns|apply attr_value_returns_resident]; auto.
Qed.
Print Assumptions C20_accessors_partial.
Theorem C20_short_attribute_refuted : exists prot f o l, bytes_ok prot /\ zlen prot = 1024 /\ file_of_bytes prot (Some 4096) 40 = Ok f /\
  attr_walk (f_data f) (field 2 (f_data f) 20) [56; o] true /\ l = iterate (raw_next f) 2 56 /\
  nth_error l 1 = Some (Some (Ok (mkAttr f o None))) /\
  attr_value_length (mkAttr f o None) = Panic /\ attr_value_simple 512 (mkAttr f o None) = Panic.
Proof. exact ex_bad_panics. Qed.
Print Assumptions C20_short_attribute_refuted.
Example C20_example : 120 + 56 <= zlen (f_data ex_file) /\ attr_fits (f_data ex_file) 120.
Proof. split; [vm_compute; discriminate|apply fits_dec; vm_compute; reflexivity]. Qed.

(** C21. [offs] are all attributes of the record ([C18]); the lookup returns the first that matches. *)
Theorem C21_lookup_first_match : forall f ty name inst offs clean, bytes_ok (f_data f) -> 22 <= zlen (f_data f) ->
  attr_walk (f_data f) (field 2 (f_data f) 20) offs clean ->
  match find_resident_attribute f ty name inst with
  | Ok a => exists l1 o l2, offs = l1 ++ o :: l2 /\ a = mkAttr f o None /\ is_match (f_data f) ty name inst o /\
              Forall (is_other (f_data f) ty name inst) l1
  | Err e => (e = EAttributeNotFound (f_position f) ty /\ clean = true /\ Forall (is_other (f_data f) ty name inst) offs) \/
             (clean = false /\ Forall (is_other (f_data f) ty name inst) offs) \/
             (exists l1 o l2, offs = l1 ++ o :: l2 /\ Forall (is_other (f_data f) ty name inst) l1 /\ is_malformed (f_data f) ty name inst o)
  | _ => False
  end.
Proof. exact lookup_first. Qed.
Print Assumptions C21_lookup_first_match.
(** The three cases exclude each other. *)
Theorem C21_cases_exclusive : forall data ty name inst off,
  ~ (is_match data ty name inst off /\ is_other data ty name inst off) /\ ~ (is_other data ty name inst off /\ is_malformed data ty name inst off).
Proof. exact cases_exclusive. Qed.
Print Assumptions C21_cases_exclusive.
Example C21_example : find_resident_attribute ex_file 128 (Some [65; 66]) None = Ok (mkAttr ex_file 120 None) /\
  find_resident_attribute ex_file 128 None None = Ok (mkAttr ex_file 88 None) /\
  find_resident_attribute ex_file 128 None (Some 4) = Ok (mkAttr ex_file 120 None) /\
  find_resident_attribute ex_file 96 None None = Err (EAttributeNotFound (Some 4096) 96).
Proof. repeat split; vm_compute; reflexivity. Qed.

(** C44. The reported position of a resident value is the position of the attribute, without the value's offset in it. *)
Theorem C44_resident_position_refuted : exists prot p f o v, bytes_ok prot /\ file_of_bytes prot (Some p) 40 = Ok f /\
  attr_resident_value (mkAttr f o None) = Ok v /\
  (* the value's first byte is at [o + vo] of the record, which is stored unchanged at [p] *)
  (let vo := field 2 (f_data f) (o + 20) in
   res_stream_position v = 0 /\ rv_data v = slice (f_data f) (o + vo) (o + vo + zlen (rv_data v)) /\ 0 < zlen (rv_data v) /\
   res_data_position v = Some (p + o) /\ res_data_position v <> Some (p + o + vo)).
Proof.
  exists (ex_record ex_attrs), 4096, ex_file, 88. eexists. split; [apply bytes_okb_ok; vm_compute; reflexivity|]. split; [vm_compute; reflexivity|].
  split; [vm_compute; reflexivity|]. cbn zeta. split; [reflexivity|]. split; [vm_compute; reflexivity|]. split; [vm_compute; reflexivity|].
  split; [vm_compute; reflexivity|]. vm_compute. discriminate.
Qed.
Print Assumptions C44_resident_position_refuted.
(** What holds: the reported position, corrected by the value offset, is the position of the next byte.
    Missing: the correction. *)
Theorem C44_resident_position_partial : forall f o e v p q, bytes_ok (f_data f) -> f_position f = Some p -> 0 < p ->
  0 <= o -> attr_fits (f_data f) o -> o + 22 <= zlen (f_data f) -> p + zlen (f_data f) <= U64_MAX ->
  attr_resident_value (mkAttr f o e) = Ok v -> 0 <= q <= zlen (rv_data v) ->
  let vo := field 2 (f_data f) (o + 20) in
  res_data_position (mkResv (rv_data v) (rv_position v) q) = Some (p + (o + vo + q) - vo) /\
  (q < zlen (rv_data v) -> byte_at (rv_data v) q = byte_at (f_data f) (o + vo + q)).
Proof. exact resident_position. Qed.
Print Assumptions C44_resident_position_partial.
