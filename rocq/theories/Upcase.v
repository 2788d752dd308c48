(** * The upper case table: src/upcase_table.rs, and the functions that depend on it.

    Strings are represented by their UTF-16 code units ([u16_iter] / [encode_utf16]). *)
From Verif Require Import Base Dev Types Record DataRuns Stream NonResident Resident Attribute File Structured AttrList.

(** src/upcase_table.rs 19-22. *)
Definition UPCASE_TABLE_SIZE : Z := 131072.

(** src/upcase_table.rs 79-81 [u16_to_uppercase]: indexing panics out of range. *)
Definition u16_to_uppercase (t : list Z) (c : Z) : res Z :=
  match (if 0 <=? c then nth_error t (Z.to_nat c) else None) with Some u => Ok u | None => Panic end.

(** src/upcase_table.rs 112-144: the loop of [upcase_cmp_iter]. *)
Fixpoint upcase_cmp_loop (t : list Z) (this other : list Z) : res comparison :=
  match this, other with
  | x :: this', y :: other' =>
      let? tu := u16_to_uppercase t x in
      let? ou := u16_to_uppercase t y in
      if negb (tu =? ou) then Ok (tu ?= ou) else upcase_cmp_loop t this' other'
  | _ :: _, [] => Ok Gt
  | [], _ :: _ => Ok Lt
  | [], [] => Ok Eq
  end.

(** src/upcase_table.rs 85-144 [upcase_cmp] (all three implementations); src/ntfs.rs 165-169: panics if the table has not been read. *)
Definition upcase_cmp (nt : ntfs) (this other : list Z) : res comparison :=
  match upcase_table nt with
  | None => Panic
  | Some t => upcase_cmp_loop t this other
  end.

(** src/file.rs 208-245 [data]; [Ok None] stands for [None]. [stream] are the code units of [data_stream_name]. *)
Definition data_accepts (nt : ntfs) (stream : list Z) (i : attr_item) (a : attribute) : res (option attr_item) :=
  let? ty := attr_ty a in
  if negb (ty =? TY_Data) then Ok None
  else
    let? name := attr_name a in
    let? eq := (match stream with
                | [] => Ok (zlen name =? 0)
                | _ => let? c := upcase_cmp nt (units name) stream in Ok (match c with Eq => true | _ => false end)
                end) in
    Ok (if (eq : bool) then Some i else None).
(** src/file.rs 208-245 [data]. *)
Definition file_data (fuel : nat) (nt : ntfs) (f : file) (stream : list Z) : M (option attr_item) :=
  try st <- attrs_start f;
  attrs_search fuel nt (fun i a => mlift (data_accepts nt stream i a)) st.

(** src/upcase_table.rs 38-74 [read]. *)
Definition upcase_read (fuel : nat) (nt : ntfs) : M (list Z) :=
  do f <- ntfs_file nt 10;
  do x <- file_data fuel nt f [];
  try i <- (match x with Some i => Ok i | None => Err (EAttributeNotFound (f_position f) TY_Data) end);
  try a <- item_to_attribute i;
  try len <- attr_value_length a;
  if negb (len =? UPCASE_TABLE_SIZE) then mlift (Err (EInvalidUpcaseTableSize UPCASE_TABLE_SIZE len))
  else
    do v <- attr_value nt a;
    fun d =>
      match rs_read_exact (av_read fuel) v UPCASE_TABLE_SIZE d with
      | (d', (_, Ok data)) => (d', Ok (units data))
      | (d', (_, Err e)) => (d', Err e)
      | (d', (_, Panic)) => (d', Panic)
      | (d', (_, OutOfFuel)) => (d', OutOfFuel)
      end.

(** src/ntfs.rs 128-135 [read_upcase_table]: the [Ntfs] object afterwards. *)
Definition read_upcase_table (fuel : nat) (nt : ntfs) : M ntfs :=
  do t <- upcase_read fuel nt;
  mret (mkNtfs (cluster_size nt) (sector_size nt) (ntfs_size nt) (mft_position nt) (file_record_size nt) (serial_number nt) (Some t)).
