(** * C22: flattened iteration and lookup in a record without attribute list. *)
From Verif Require Import Base Dev Types Record DataRuns Stream NonResident Resident Attribute File Guid Structured AttrList Upcase
  Spec SpecMisc SpecValues BaseProofs AttributeProofs FileProofs StructuredProofs ValueProofs AttrListProofs FileExamples ValueExamples.

(** C22. [offs] are the attributes that raw iteration visits (C18). [attributes] returns the same ones, in the same order, and then [None]
    forever (or the error of the raw iteration), and the device is not touched. [mkItem f None o None]: the attribute at [o] of [f]. *)
Theorem C22_iteration : forall nt f offs clean, bytes_ok (f_data f) -> 22 <= zlen (f_data f) ->
  attr_walk (f_data f) (field 2 (f_data f) 20) offs clean -> no_attribute_list (f_data f) offs ->
  exists st e, attrs_start f = Ok st /\ forall k n d,
    iterate (with_dev (attrs_next (S k) nt)) (length offs + n) (st, d) =
      map (fun o => Some (Ok (mkItem f None o None))) offs ++ repeat (if clean : bool then None else Some (Err e)) n /\
    snd (iterate_state (with_dev (attrs_next (S k) nt)) (length offs + n) (st, d)) = d.
Proof. exact attributes_iteration. Qed.
Print Assumptions C22_iteration.
(** [to_attribute] of such an item is the raw attribute. *)
Theorem C22_to_attribute : forall f o, 0 <= o -> attr_fits (f_data f) o -> item_to_attribute (mkItem f None o None) = Ok (mkAttr f o None).
Proof. intros f o Ho Hf. exact (proj1 (attr_new_spec f o None Ho) Hf). Qed.
Print Assumptions C22_to_attribute.
(** Looking up an attribute through [attributes] gives the same as the lookup among the raw attributes (C21). *)
Theorem C22_find : forall nt f ty name offs clean, bytes_ok (f_data f) -> 22 <= zlen (f_data f) ->
  attr_walk (f_data f) (field 2 (f_data f) 20) offs clean -> no_attribute_list (f_data f) offs ->
  forall fuel d, (length offs < fuel)%nat ->
  find_attribute fuel nt f ty name d = (d, let? a := find_resident_attribute f ty name None in Ok (mkItem f None (at_offset a) None)).
Proof. exact find_attribute_spec. Qed.
Print Assumptions C22_find.
(** [data]: the first $DATA attribute with that name, compared case-insensitively (the unnamed one for the empty name, for which no
    upper case table is needed). *)
Theorem C22_data : forall nt f t stream offs clean, bytes_ok (f_data f) -> 22 <= zlen (f_data f) ->
  attr_walk (f_data f) (field 2 (f_data f) 20) offs clean -> no_attribute_list (f_data f) offs ->
  stream = [] \/ upcase_table nt = Some t /\ zlen t = 65536 /\ Forall unit_ok stream ->
  forall fuel d, (length offs < fuel)%nat ->
  exists r, file_data fuel nt f stream d = (d, r) /\
  match r with
  | Ok (Some i) => exists l1 o l2, offs = l1 ++ o :: l2 /\ Forall (not_stream (f_data f) t stream) l1 /\ is_stream (f_data f) t stream o /\
                     i = mkItem f None o None
  | Ok None => clean = true /\ Forall (not_stream (f_data f) t stream) offs
  | Err _ => (clean = false /\ Forall (not_stream (f_data f) t stream) offs) \/
             exists l1 o l2, offs = l1 ++ o :: l2 /\ Forall (not_stream (f_data f) t stream) l1 /\ malformed_stream (f_data f) o
  | _ => False
  end.
Proof. exact file_data_spec. Qed.
Print Assumptions C22_data.
(** [name]: the first $FILE_NAME attribute with the wanted namespace and parent. *)
Theorem C22_name : forall nt f ns parent offs clean, bytes_ok (f_data f) -> 22 <= zlen (f_data f) ->
  attr_walk (f_data f) (field 2 (f_data f) 20) offs clean -> no_attribute_list (f_data f) offs ->
  Forall (fun o => attr_type_at (f_data f) o = 48 -> attr_resident_at (f_data f) o /\ o + 22 <= zlen (f_data f)) offs ->
  forall fuel d, (length offs < fuel)%nat ->
  exists r, file_name_of fuel nt f ns parent d = (d, r) /\
  match r with
  | Ok (Some v) => exists l1 o l2, offs = l1 ++ o :: l2 /\ Forall (not_name (f_data f) ns parent) l1 /\ is_name (f_data f) ns parent o v
  | Ok None => clean = true /\ Forall (not_name (f_data f) ns parent) offs
  | Err _ => (clean = false /\ Forall (not_name (f_data f) ns parent) offs) \/
             exists l1 o l2, offs = l1 ++ o :: l2 /\ Forall (not_name (f_data f) ns parent) l1 /\ malformed_name (f_data f) o
  | _ => False
  end.
Proof. exact file_name_spec. Qed.
Print Assumptions C22_name.
(** The three cases exclude each other. *)
Theorem C22_cases_exclusive : forall data t stream ns parent o,
  ~ (is_stream data t stream o /\ not_stream data t stream o) /\ ~ (malformed_stream data o /\ (is_stream data t stream o \/ not_stream data t stream o)) /\
  (forall v, ~ (is_name data ns parent o v /\ not_name data ns parent o)) /\
  ~ (malformed_name data o /\ ((exists v, is_name data ns parent o v) \/ not_name data ns parent o)).
Proof. exact stream_name_exclusive. Qed.
Print Assumptions C22_cases_exclusive.

(** A table that maps a-z to A-Z. *)
Fixpoint ex_units (n : nat) (c : Z) : list Z := match n with O => [] | S k => (if (97 <=? c) && (c <=? 122) then c - 32 else c) :: ex_units k (c + 1) end.
Definition ex_table : list Z := ex_units (Z.to_nat 65536) 0.
Definition ex_upntfs : ntfs := mkNtfs 512 512 (zlen ex_vimg) (Some 1024) 1024 99 (Some ex_table).
Example C22_example : bytes_ok (f_data ex_vfile) /\ attr_walk (f_data ex_vfile) (field 2 (f_data ex_vfile) 20) ex_voffs true /\
  no_attribute_list (f_data ex_vfile) ex_voffs /\
  Forall (fun o => attr_type_at (f_data ex_vfile) o = 48 -> attr_resident_at (f_data ex_vfile) o /\ o + 22 <= zlen (f_data ex_vfile)) ex_voffs /\
  zlen ex_table = 65536 /\
  (exists v, snd (file_name_of 9 ex_upntfs ex_vfile (Some 1) (Some 5) ex_vdev) = Ok (Some v) /\ fn_name v = [65; 0; 66; 0]) /\
  snd (file_name_of 9 ex_upntfs ex_vfile (Some 2) None ex_vdev) = Ok None /\
  snd (file_data 9 ex_upntfs ex_vfile [] ex_vdev) = Ok (Some (mkItem ex_vfile None 376 None)) /\
  snd (file_data 9 ex_upntfs ex_file [97; 98] ex_vdev) = Ok (Some (mkItem ex_file None 120 None)).
Proof.
  split; [apply ex_volume|]. split; [exact ex_vwalk|].
  split; [repeat (apply Forall_cons; [vm_compute; discriminate|]); apply Forall_nil|].
  split; [repeat (apply Forall_cons; [vm_compute; first [discriminate|split; [reflexivity|discriminate]]|]); apply Forall_nil|].
  split; [vm_compute; reflexivity|]. split; [eexists; vm_compute; split; reflexivity|].
  split; [vm_compute; reflexivity|]. split; vm_compute; reflexivity.
Qed.
