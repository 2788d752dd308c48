(** * Specification of a whole volume and of the example program's commands, independent of the model of the code. *)
From Verif Require Import Base Dev Types Record Attribute File Spec SpecMisc SpecValues SpecIndex SpecAttrList SpecListDir SpecInfo.
From Verif Require Shell.

(** ** What a volume contains *)
(** A name of a file: the number of the directory it is in, its namespace, the name (code units). *)
Record link := mkLink { l_parent : Z; l_namespace : Z; l_name : list Z }.
(** An entry of a directory: a name, whether it is said to be a directory, the number of the file. *)
Record dirent := mkDirent { de_name : list Z; de_directory : bool; de_target : Z }.
(** A file: its names, its $DATA streams (name and content), and its entries if it is a directory. *)
Record object := mkObject { ob_links : list link; ob_streams : list (list Z * list Z); ob_entries : option (list dirent) }.
(** A volume: cluster size, file record size, the extents of the MFT, the upper case table, and the files by their number. *)
Record volume := mkVolume { v_cluster : Z; v_record : Z; v_mft : list extent; v_upper : list Z; v_object : Z -> option object }.

(** ** How it is stored on the device *)
(** [data] is the file record number [n]: stored in one piece in the MFT. *)
Definition numbered_record (img : list Z) (v : volume) (n : Z) (data : list Z) : Prop :=
  let frs := v_record v in
  let prot := slice (concat (map (extent_bytes (v_cluster v) img) (v_mft v))) (n * frs) (n * frs + frs) in
  0 <= n <= U64_MAX /\ n * frs <= U64_MAX /\ in_one_extent (v_cluster v) (v_mft v) (n * frs) (n * frs + frs) /\
  array_clear (field 2 prot 4) (field 2 prot 6 - 1) /\ stored_as data prot /\ file_record_ok data.

(** [l] has one element for each attribute of type [ty] among those at [offs], in order, related to it by [R]. *)
Inductive of_type {A} (data : list Z) (ty : Z) (R : Z -> A -> Prop) : list Z -> list A -> Prop :=
| ot_nil : of_type data ty R [] []
| ot_other o offs l : attr_type_at data o <> ty -> of_type data ty R offs l -> of_type data ty R (o :: offs) l
| ot_one o offs x l : attr_type_at data o = ty -> R o x -> of_type data ty R offs l -> of_type data ty R (o :: offs) (x :: l).
(** The (resident) $FILE_NAME attribute at [o] says [x]. *)
Definition says_link (data : list Z) (o : Z) (x : link) : Prop :=
  attr_resident_at data o /\ o + 22 <= zlen data /\
  exists bs, attr_value_at data o bs /\ 68 <= zlen bs /\ 66 + 2 * field 1 bs 64 <= zlen bs /\ field 1 bs 65 <= 3 /\
    l_parent x = field 6 bs 0 /\ l_namespace x = field 1 bs 65 /\ utf16 (slice bs 66 (66 + 2 * field 1 bs 64)) (l_name x).
(** The $DATA attribute at [o] has this name and content. *)
Definition says_stream (cs : Z) (img data : list Z) (o : Z) (x : list Z * list Z) : Prop :=
  (exists bs, attr_name_at data o bs /\ utf16 bs (fst x)) /\ attr_content cs img data o (snd x).
(** The index entry [e] (its bytes) says [x]. *)
Definition says_entry (e : list Z) (x : dirent) : Prop :=
  named e (de_name x) /\ de_directory x = Z.testbit (field 4 (key_of e) 56) 28 /\ de_target x = field 6 e 0.

(** The file record [data] describes [o]: all its attributes are in the record itself, of known types, and say what [o] says; a directory's
    index lists its entries, in the order of their names without regard to case. *)
Definition describes_file (img : list Z) (v : volume) (data : list Z) (o : object) : Prop :=
  exists offs, attr_walk data (field 2 data 20) offs true /\ no_attribute_list data offs /\ Forall (fun x => type_known (attr_type_at data x)) offs /\
    of_type data 48 (says_link data) offs (ob_links o) /\ of_type data 128 (says_stream (v_cluster v) img data) offs (ob_streams o) /\
    match ob_entries o with
    | Some l => exists root alloc es, is_directory (v_cluster v) img data offs root alloc /\ index_listing (v_cluster v) root alloc es /\
                  Forall2 says_entry es l /\ names_sorted (fun a b => lex_lt (upper (v_upper v) a) (upper (v_upper v) b)) es
    | None => Z.testbit (field 2 data 22) 1 = false
    end.

(** *** Files with an attribute list
    Their attributes are [views] (SpecAttrList.v): those of the file's own record [base], and those in other records. *)
(** [l] has one element for each attribute of type [ty] among [views], in order, related to it by [R]. *)
Inductive of_type_listed {A} (base : list Z) (ty : Z) (R : view -> A -> Prop) : list view -> list A -> Prop :=
| otl_nil : of_type_listed base ty R [] []
| otl_other w views l : at_view base (fun data o => attr_type_at data o <> ty) w -> of_type_listed base ty R views l -> of_type_listed base ty R (w :: views) l
| otl_one w views x l : at_view base (fun data o => attr_type_at data o = ty) w -> R w x -> of_type_listed base ty R views l ->
    of_type_listed base ty R (w :: views) (x :: l).
(** The content of an attribute, which may be in several parts. The first part (lowest VCN 0) is the one that is shown. *)
Definition view_content (img : list Z) (nt : ntfs) (ml : list extent) (base bs : list Z) (e : list_end) (w : view) (content : list Z) : Prop :=
  match w with
  | VBase o => attr_content (cluster_size nt) img base o content
  | VOther _ _ data a => attr_content (cluster_size nt) img data a content
  | VParts _ _ data a from => exists parts, a + 56 <= zlen data /\ field 8 data (a + 16) = 0 /\
      connected img nt ml bs (attr_type_at data a) (attr_instance_at data a) e from parts /\
      field 8 data (a + 48) <= extents_size (cluster_size nt) (concat parts) /\
      content = file_content (cluster_size nt) img (concat parts) (field 8 data (a + 48))
  | VBroken => False
  end.
(** Type and instance tell the attributes in other records apart: a later list entry with the same type and instance does not start at VCN 0. *)
Definition told_apart (bs : list Z) (self : Z) (ents : list Z) : Prop :=
  forall l1 o l2 o' l3, ents = l1 ++ o :: l2 ++ o' :: l3 -> entry_number bs o <> self -> entry_number bs o' <> self ->
    entry_type bs o = entry_type bs o' -> entry_instance bs o = entry_instance bs o' -> field 8 bs (o' + 8) <> 0.
(** The file number [n], whose record is [data] (stored at [q]), has an attribute list. *)
Record has_list (img : list Z) (v : volume) (n q : Z) (data : list Z) (nt : ntfs) (before : list Z) (lo : Z) (after bs offs : list Z) (e : list_end) (vs : list view) : Prop := {
  hl_cluster : cluster_size nt = v_cluster v;
  hl_record : file_record_size nt = v_record v;
  hl_list : file_with_list img nt (v_mft v) (mkFile (mkRecord data (Some q)) n) before lo after true bs offs e vs
}.
(** Like [describes_file], for a file with an attribute list. *)
Definition describes_listed (img : list Z) (v : volume) (n q : Z) (data : list Z) (o : object) : Prop :=
  exists nt before lo after bs offs e vs, has_list img v n q data nt before lo after bs offs e vs /\
    told_apart bs n (SpecAttrList.entries_of data lo offs e) /\
    let views := map VBase before ++ vs ++ map VBase after in
    Forall (at_view data (fun data o => type_known (attr_type_at data o))) views /\
    of_type_listed data 48 (fun w x => at_view data (fun data o => says_link data o x) w) views (ob_links o) /\
    of_type_listed data 128 (fun w x => at_view data (fun data o => exists bs, attr_name_at data o bs /\ utf16 bs (fst x)) w /\
                                         view_content img nt (v_mft v) data bs e w (snd x)) views (ob_streams o) /\
    match ob_entries o with
    | Some l => exists root alloc es, listed_directory img nt (v_mft v) (mkFile (mkRecord data (Some q)) n) bs e views root alloc /\
                  index_listing (v_cluster v) root alloc es /\
                  Forall2 says_entry es l /\ names_sorted (fun a b => lex_lt (upper (v_upper v) a) (upper (v_upper v) b)) es
    | None => Z.testbit (field 2 data 22) 1 = false
    end.

(** The file record number [n] of the volume, with its place on the device. *)
Definition placed_record (img : list Z) (v : volume) (n p : Z) (data : list Z) : Prop :=
  numbered_record img v n data /\ disk_position (v_cluster v) (v_mft v) (n * v_record v) = Some p.

(** The device content [img] is the volume [v]: boot sector, MFT, upper case table (the unnamed stream of file 10) and files. *)
Record stored_volume (img : list Z) (v : volume) : Prop := {
  sv_bytes : bytes_ok img;
  sv_boot : 512 <= zlen img /\ exists sector size mp serial data, boot_describes (ztake 512 img) sector (v_cluster v) size mp (v_record v) serial /\
              mft_at img mp (v_record v) data (v_mft v);
  sv_record : 32 <= v_record v <= U16_MAX;
  sv_mft : valid_extents (v_cluster v) img (v_mft v);
  sv_upper : exists data offs l1 o l2 bs, numbered_record img v 10 data /\ attr_walk data (field 2 data 20) offs true /\ no_attribute_list data offs /\
              offs = l1 ++ o :: l2 /\ Forall (not_stream data [] []) l1 /\ is_stream data [] [] o /\
              attr_content (v_cluster v) img data o bs /\ zlen bs = 131072 /\ utf16 bs (v_upper v);
  sv_objects : forall n o, v_object v n = Some o -> exists data, numbered_record img v n data /\
    (describes_file img v data o \/ exists q, placed_record img v n q data /\ describes_listed img v n q data o)
}.
(** Directory entries refer to files of the volume, those flagged as directories to directories; there is a root directory, file 5. *)
Record closed (v : volume) : Prop := {
  cl_root : exists o l, v_object v 5 = Some o /\ ob_entries o = Some l;
  cl_targets : forall n o l e, v_object v n = Some o -> ob_entries o = Some l -> In e l ->
    exists o', v_object v (de_target e) = Some o' /\ (de_directory e = true -> ob_entries o' <> None)
}.
(** No file has an empty name or one with a backslash (92). *)
Definition plain_names (v : volume) : Prop :=
  forall n o x, v_object v n = Some o -> In x (ob_links o) -> l_name x <> [] /\ ~ In 92 (l_name x).

(** ** Commands *)
(** The first one with a property. *)
Definition first_of {A} (P : A -> Prop) (l : list A) (x : A) : Prop := exists l1 l2, l = l1 ++ x :: l2 /\ P x /\ Forall (fun y => ~ P y) l1.
Definition none_of {A} (P : A -> Prop) (l : list A) : Prop := Forall (fun y => ~ P y) l.

(** The name of a file in the directory [parent] that is shown: a Win32 name (1), or else one for Win32 and DOS (3), or else any. *)
Definition in_namespace (parent ns : Z) (x : link) : Prop := l_parent x = parent /\ l_namespace x = ns.
Inductive shown_name (l : list link) (parent : Z) : option link -> Prop :=
| sn_win32 x : first_of (in_namespace parent 1) l x -> shown_name l parent (Some x)
| sn_both x : none_of (in_namespace parent 1) l -> first_of (in_namespace parent 3) l x -> shown_name l parent (Some x)
| sn_any x : none_of (in_namespace parent 1) l -> none_of (in_namespace parent 3) l -> first_of (fun x => l_parent x = parent) l x ->
    shown_name l parent (Some x)
| sn_none : none_of (fun x => l_parent x = parent) l -> shown_name l parent None.

(** Where the user is: numbers and shown names of the directories from the current one up to below the root directory. *)
Definition path := list (Z * list Z).
Definition current (p : path) : Z := match p with [] => 5 | (n, _) :: _ => n end.
(** The text of the prompt: the names from the top, with a backslash between them. *)
Fixpoint prompt (p : path) : list Z :=
  match p with
  | [] => []
  | [(_, name)] => name
  | (_, name) :: up => prompt up ++ [92] ++ name
  end.

(** Texts of numbers: decimal, or hexadecimal after "0x"; a plus sign is allowed. *)
Definition digit (base c x : Z) : Prop := 0 <= x < base /\ (x <= 9 /\ c = 48 + x \/ 10 <= x /\ (c = 87 + x \/ c = 55 + x)).
Inductive digits (base : Z) : list Z -> Z -> Prop :=
| dg_one c x : digit base c x -> digits base [c] x
| dg_more ds n c x : digits base ds n -> digit base c x -> digits base (ds ++ [c]) (n * base + x).
Definition signed_digits (base : Z) (text : list Z) (n : Z) : Prop := digits base text n \/ exists ds, text = 43 :: ds /\ digits base ds n.
Definition numeral (text : list Z) (n : Z) : Prop :=
  n <= U64_MAX /\
  ((exists ds, text = 48 :: 120 :: ds /\ signed_digits 16 ds n) \/ ((forall ds, text <> 48 :: 120 :: ds) /\ signed_digits 10 text n)).

(** The text before the first colon (58) and the one behind it. *)
Definition splits (arg file stream : list Z) : Prop :=
  ~ In 58 file /\ (arg = file ++ 58 :: stream \/ arg = file /\ stream = []).

Section Commands.
  Variable img : list Z.
  Variable v : volume.
  Let same_name (a b : list Z) : Prop := upper (v_upper v) a = upper (v_upper v) b.
  Definition entries_of (n : Z) (l : list dirent) : Prop := exists o, v_object v n = Some o /\ ob_entries o = Some l.

  (** The file that an argument stands for: "/" and a number, or the name of an entry of the current directory (in any case). *)
  Inductive stands_for (p : path) : list Z -> Z + Shell.message -> Prop :=
  | sf_empty : stands_for p [] (inr Shell.MissingArgument)
  | sf_number text n o : numeral text n -> v_object v n = Some o -> stands_for p (47 :: text) (inl n)
  | sf_bad text : (forall n, ~ numeral text n) -> stands_for p (47 :: text) (inr Shell.BadNumber)
  | sf_name c name l e o : c <> 47 -> entries_of (current p) l -> In e l -> same_name (de_name e) (c :: name) -> v_object v (de_target e) = Some o ->
      stands_for p (c :: name) (inl (de_target e))
  | sf_missing c name l : c <> 47 -> entries_of (current p) l -> (forall e, In e l -> ~ same_name (de_name e) (c :: name)) ->
      stands_for p (c :: name) (inr Shell.NoSuchFile).

  (** Replies without lines and data. *)
  Definition quiet : Shell.reply := Shell.mkReply [] [] (Ok (Shell.Done tt)).
  Definition says (m : Shell.message) : Shell.reply := Shell.mkReply [] [] (Ok (Shell.Said m)).
  (** A stream name matches exactly if it is empty, else in any case. *)
  Definition stream_matches (stream : list Z) (x : list Z * list Z) : Prop := match stream with [] => fst x = [] | _ => same_name (fst x) stream end.

  (** One command: the reply, and where the user is afterwards. *)
  Inductive answers (p : path) : Shell.command -> Shell.reply -> path -> Prop :=
  | an_cd_here : answers p (Shell.DoCd []) quiet p
  | an_cd_up : answers p (Shell.DoCd [46; 46]) quiet (tl p)
  | an_cd_missing name l : name <> [] -> name <> [46; 46] -> entries_of (current p) l -> (forall e, In e l -> ~ same_name (de_name e) name) ->
      answers p (Shell.DoCd name) (says Shell.NoSuchFile) p
  | an_cd_file name l e : name <> [] -> name <> [46; 46] -> entries_of (current p) l -> In e l -> same_name (de_name e) name -> de_directory e = false ->
      answers p (Shell.DoCd name) (says Shell.NotADirectory) p
  | an_cd_enter name l e o x : name <> [] -> name <> [46; 46] -> entries_of (current p) l -> In e l -> same_name (de_name e) name -> de_directory e = true ->
      v_object v (de_target e) = Some o -> shown_name (ob_links o) (current p) (Some x) ->
      answers p (Shell.DoCd name) quiet ((de_target e, l_name x) :: p)
  | an_cd_nameless name l e o : name <> [] -> name <> [46; 46] -> entries_of (current p) l -> In e l -> same_name (de_name e) name -> de_directory e = true ->
      v_object v (de_target e) = Some o -> shown_name (ob_links o) (current p) None ->
      answers p (Shell.DoCd name) (says Shell.NoFileName) p
  | an_dir l : entries_of (current p) l ->
      answers p Shell.DoDir (Shell.mkReply (map (fun e => Shell.LEntry (de_directory e) (de_name e)) l) [] (Ok (Shell.Done tt))) p
  | an_get_none arg file stream m : splits arg file stream -> stands_for p file (inr m) -> answers p (Shell.DoGet arg) (says m) p
  | an_get_no_stream arg file stream n o : splits arg file stream -> stands_for p file (inl n) -> v_object v n = Some o -> none_of (stream_matches stream) (ob_streams o) ->
      answers p (Shell.DoGet arg) (says Shell.NoStream) p
  | an_get arg file stream n o x : splits arg file stream -> stands_for p file (inl n) -> v_object v n = Some o -> first_of (stream_matches stream) (ob_streams o) x ->
      answers p (Shell.DoGet arg) (Shell.mkReply [] (snd x) (Ok (Shell.Done tt))) p
  | an_attr_none runs arg m : stands_for p arg (inr m) -> answers p (Shell.DoAttr runs arg) (says m) p
  | an_attr runs arg n q data offs ls : stands_for p arg (inl n) -> placed_record img v n q data -> attr_walk data (field 2 data 20) offs true ->
      no_attribute_list data offs -> record_lines (v_cluster v) runs n q data offs ls -> answers p (Shell.DoAttr runs arg) (Shell.mkReply ls [] (Ok (Shell.Done tt))) p
  | an_attr_listed runs arg n q data nt before lo after bs offs e vs ls : stands_for p arg (inl n) -> placed_record img v n q data ->
      has_list img v n q data nt before lo after bs offs e vs ->
      listed_lines img nt (v_mft v) runs n q data before lo after bs (SpecAttrList.entries_of data lo offs e) ls ->
      answers p (Shell.DoAttr runs arg) (Shell.mkReply ls [] (Ok (Shell.Done tt))) p
  | an_fileinfo_none arg m : stands_for p arg (inr m) -> answers p (Shell.DoFileinfo arg) (says m) p
  | an_fileinfo arg n q data offs parts : stands_for p arg (inl n) -> placed_record img v n q data -> attr_walk data (field 2 data 20) offs true ->
      no_attribute_list data offs -> Forall2 (info_line data) offs parts ->
      answers p (Shell.DoFileinfo arg) (Shell.mkReply (file_line n q data :: concat parts) [] (Ok (Shell.Done tt))) p
  | an_fileinfo_listed arg n q data nt before lo after bs offs e vs parts : stands_for p arg (inl n) -> placed_record img v n q data ->
      has_list img v n q data nt before lo after bs offs e vs ->
      Forall2 (fun w part => at_view data (fun data o => info_line data o part) w) (map VBase before ++ vs ++ map VBase after) parts ->
      answers p (Shell.DoFileinfo arg) (Shell.mkReply (file_line n q data :: concat parts) [] (Ok (Shell.Done tt))) p
  | an_fsinfo data sector size mp serial major minor label : boot_describes (ztake 512 img) sector (v_cluster v) size mp (v_record v) serial ->
      numbered_record img v 3 data -> volume_record data major minor label ->
      answers p Shell.DoFsinfo (Shell.mkReply (volume_lines sector (v_cluster v) size mp (v_record v) serial major minor label) [] (Ok (Shell.Done tt))) p
  | an_help arg : answers p (Shell.DoHelp arg) quiet p
  | an_nothing : answers p Shell.DoNothing quiet p
  | an_unknown word : answers p (Shell.DoUnknown word) (says Shell.NoSuchCommand) p.

  (** A whole history of commands: replies and prompts. *)
  Inductive history : path -> list Shell.command -> list (Shell.reply * list Z) -> Prop :=
  | hi_nil p : history p [] []
  | hi_cons p c r p' cs l : answers p c r p' -> history p' cs l -> history p (c :: cs) ((r, prompt p') :: l).

  (** A number in an argument is the one of a file of the volume. *)
  Definition names_files (arg : list Z) : Prop := Forall unit_ok arg /\ forall text n, arg = 47 :: text -> numeral text n -> v_object v n <> None.
  (** All attributes of all files are whole, also those in other records that list entries refer to. *)
  Definition whole_attributes : Prop :=
    (forall n o data offs, v_object v n = Some o -> numbered_record img v n data -> attr_walk data (field 2 data 20) offs true -> Forall (attr_whole (v_cluster v) data) offs) /\
    (forall n o q data nt before lo after bs offs e vs, v_object v n = Some o -> placed_record img v n q data -> has_list img v n q data nt before lo after bs offs e vs ->
       Forall (entry_whole img nt (v_mft v) bs n) (SpecAttrList.entries_of data lo offs e)).
  (** All $STANDARD_INFORMATION attributes are resident and have at least 48 bytes. *)
  Definition whole_standard (data : list Z) (x : Z) : Prop := attr_type_at data x = 16 ->
    attr_resident_at data x /\ x + 22 <= zlen data /\ exists bs, attr_value_at data x bs /\ 48 <= zlen bs.
  Definition whole_standard_information : Prop :=
    (forall n o data offs x, v_object v n = Some o -> numbered_record img v n data -> attr_walk data (field 2 data 20) offs true -> In x offs -> whole_standard data x) /\
    (forall n o q data nt before lo after bs offs e vs w, v_object v n = Some o -> placed_record img v n q data -> has_list img v n q data nt before lo after bs offs e vs ->
       In w vs -> at_view data whole_standard w).
  (** Arguments are UTF-16; numbers given in place of names are those of files of the volume. What a command prints about attributes exists. *)
  Definition command_ok (c : Shell.command) : Prop :=
    match c with
    | Shell.DoCd arg => Forall unit_ok arg
    | Shell.DoGet arg => Forall unit_ok arg /\ forall file stream, splits arg file stream -> names_files file
    | Shell.DoAttr _ arg => names_files arg /\ whole_attributes
    | Shell.DoFileinfo arg => names_files arg /\ whole_standard_information
    | Shell.DoFsinfo => exists data major minor label, numbered_record img v 3 data /\ volume_record data major minor label
    | _ => True
    end.
End Commands.
