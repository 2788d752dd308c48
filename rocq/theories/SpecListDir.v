(** * Specification: directories whose attributes are spread over several file records. *)
From Verif Require Import Base Dev Types Record DataRuns Attribute File AttrList Spec SpecMisc SpecValues SpecIndex SpecAttrList.

(** The first of the attributes [views] with that type and name is [v]. [base] is the file's own record. *)
Definition first_view (base : list Z) (views : list view) (ty : Z) (name : list Z) (v : view) : Prop :=
  exists v1 v2, views = v1 ++ v :: v2 /\
    Forall (at_view base (fun data o => is_other data ty (Some name) None o)) v1 /\
    at_view base (fun data o => is_match data ty (Some name) None o) v.

(** A directory ([is_directory]) that has an attribute list: flagged as a directory, and among all of its attributes [views] (see
    [file_with_list]) there are a resident $INDEX_ROOT "$I30" with the value [root], in whichever record, and, if the index is large, an
    $INDEX_ALLOCATION "$I30" with the content [alloc]: either in the file's own record, with all of its extents there; or in other
    records, its extents being those of all of its parts. *)
Record listed_directory (img : list Z) (nt : ntfs) (ml : list extent) (f : file) (bs : list Z) (e : list_end) (views : list view) (root alloc : list Z) : Prop := {
  ld_flag : 24 <= zlen (f_data f) /\ Z.testbit (field 2 (f_data f) 22) 1 = true;
  ld_root : exists v data o, first_view (f_data f) views 144 I30 v /\ view_at (f_data f) v = Some (data, o) /\
    attr_resident_at data o /\ o + 22 <= zlen data /\ attr_value_at data o root;
  ld_root_ok : index_root_ok root;
  ld_alloc : if root_is_large root
    then exists v, first_view (f_data f) views 160 I30 v /\
      match v with
      | VBase o => exists l, ~ attr_resident_at (f_data f) o /\ o + 56 <= zlen (f_data f) /\
          field 2 (f_data f) (o + 32) <= attr_len_at (f_data f) o /\ valid_extents (cluster_size nt) img l /\
          encodes 0 l (slice (f_data f) (o + field 2 (f_data f) (o + 32)) (o + attr_len_at (f_data f) o)) /\
          field 8 (f_data f) (o + 48) <= extents_size (cluster_size nt) l /\
          alloc = file_content (cluster_size nt) img l (field 8 (f_data f) (o + 48))
      | VParts _ _ data a from => exists parts, a + 56 <= zlen data /\
          connected img nt ml bs (attr_type_at data a) (attr_instance_at data a) e from parts /\
          field 8 data (a + 48) <= extents_size (cluster_size nt) (concat parts) /\
          alloc = file_content (cluster_size nt) img (concat parts) (field 8 data (a + 48))
      | _ => False
      end
    else alloc = [];
  ld_record_size : root_is_large root = true -> 36 <= root_record_size root <= U16_MAX
}.
