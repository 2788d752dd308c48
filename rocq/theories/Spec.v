(** * Specification vocabulary, independent of the model's functions.

    Only the data types [seekfrom], [res], [err] and the device record of the model are used. *)
From Verif Require Import Base Dev.

(** ** Byte streams *)
(** Operations a user performs on a value reader, and what they return. *)
Inductive op := ORead (n : Z) | OSeek (p : seekfrom).
Inductive opres := RBytes (r : res (list Z)) | RPos (r : res Z).

(** Arguments that the Rust types admit: buffer lengths are usize, [SeekFrom] has u64/i64 payload. *)
Definition seek_arg_ok (s : seekfrom) : Prop :=
  match s with
  | SStart n => 0 <= n <= U64_MAX
  | SEnd n | SCurrent n => I64_MIN <= n <= I64_MAX
  end.
Definition op_ok (o : op) : Prop :=
  match o with
  | ORead n => 0 <= n <= U64_MAX
  | OSeek s => seek_arg_ok s
  end.

(** An in-memory cursor at position [p] over [content]; [size] is what [SeekFrom::End] refers to. *)
Definition seek_target (size p : Z) (s : seekfrom) : Z :=
  match s with SStart n => n | SEnd n => size + n | SCurrent n => p + n end.

Definition cursor_step (content : list Z) (size p : Z) (o : op) : Z * opres :=
  match o with
  | ORead n => let bs := ztake n (zdrop p content) in (p + zlen bs, RBytes (Ok bs))
  | OSeek s =>
      let q := seek_target size p s in
      if (0 <=? q) && (q <=? U64_MAX) then (q, RPos (Ok q)) else (p, RPos (Err (EIo InvalidInput)))
  end.

Fixpoint cursor_run (content : list Z) (size p : Z) (l : list op) : list opres :=
  match l with
  | [] => []
  | o :: t => let '(p', r) := cursor_step content size p o in r :: cursor_run content size p' t
  end.

(** A reader object of the model, given by its [read] and [seek] functions, applied to a history of operations. *)
Definition reader_step {S} (read : S -> Z -> dev -> dev * (S * res (list Z)))
  (seek : S -> seekfrom -> dev -> dev * (S * res Z)) (s : S) (d : dev) (o : op) : dev * S * opres :=
  match o with
  | ORead n => let '(d', (s', r)) := read s n d in (d', s', RBytes r)
  | OSeek p => let '(d', (s', r)) := seek s p d in (d', s', RPos r)
  end.

Fixpoint reader_run {S} (read : S -> Z -> dev -> dev * (S * res (list Z)))
  (seek : S -> seekfrom -> dev -> dev * (S * res Z)) (s : S) (d : dev) (l : list op) : list opres :=
  match l with
  | [] => []
  | o :: t => let '(d', s', r) := reader_step read seek s d o in r :: reader_run read seek s' d' t
  end.

(** ** Extents: a contiguous range of clusters, or a hole. *)
Record extent := mkExtent { e_lcn : option Z; e_count : Z }.

(** The bytes an extent stands for, on a device image, for clusters of [cs] bytes. *)
Definition extent_bytes (cs : Z) (img : list Z) (e : extent) : list Z :=
  match e_lcn e with
  | Some lcn => slice img (lcn * cs) (lcn * cs + e_count e * cs)
  | None => zrepeat 0 (e_count e * cs)
  end.

(** The content of a file of [size] bytes. *)
Definition file_content (cs : Z) (img : list Z) (l : list extent) (size : Z) : list Z :=
  ztake size (concat (map (extent_bytes cs img) l)).

(** Extents that lie on the device. *)
Definition extent_on_device (cs : Z) (img : list Z) (e : extent) : Prop :=
  0 < e_count e /\
  match e_lcn e with
  | Some lcn => 0 <= lcn /\ lcn * cs + e_count e * cs <= zlen img
  | None => True
  end.

(** Number of allocated bytes. *)
Fixpoint extents_size (cs : Z) (l : list extent) : Z :=
  match l with
  | [] => 0
  | e :: t => e_count e * cs + extents_size cs t
  end.

(** ** Iterators: the results of the first [n] calls of [next]. *)
Fixpoint iterate {S A} (next : S -> S * item A) (n : nat) (s : S) : list (item A) :=
  match n with
  | O => []
  | Datatypes.S m => let '(s', x) := next s in x :: iterate next m s'
  end.

(** State after [n] calls. *)
Fixpoint iterate_state {S A} (next : S -> S * item A) (n : nat) (s : S) : S :=
  match n with
  | O => s
  | Datatypes.S m => iterate_state next m (fst (next s))
  end.

(** ** Mapping pairs (the on-disk encoding of extents), as documented for NTFS: a header byte with the width of the length
    field in the low nibble and the width of the offset field in the high nibble, an unsigned little endian length in
    clusters, and a signed little endian LCN difference to the previous data extent; a zero offset width is a hole; a zero
    header ends the list.  Any widths that fit are legal. *)
Definition unsigned_bytes (bs : list Z) (v : Z) : Prop :=
  bytes_ok bs /\ 1 <= zlen bs <= 8 /\ le_val bs = v.
Definition signed_bytes (bs : list Z) (v : Z) : Prop :=
  bytes_ok bs /\ 1 <= zlen bs <= 8 /\ - (256 ^ zlen bs / 2) <= v < 256 ^ zlen bs / 2 /\ le_val bs = v mod 256 ^ zlen bs.

Inductive encodes : Z -> list extent -> list Z -> Prop :=
| enc_marker prev tail : encodes prev [] (0 :: tail)
| enc_nothing prev : encodes prev [] []
| enc_data prev lcn count cb ob l bs :
    unsigned_bytes cb count -> signed_bytes ob (lcn - prev) -> encodes lcn l bs ->
    encodes prev (mkExtent (Some lcn) count :: l) (zlen ob * 16 + zlen cb :: cb ++ ob ++ bs)
| enc_hole prev count cb l bs :
    unsigned_bytes cb count -> encodes prev l bs ->
    encodes prev (mkExtent None count :: l) (zlen cb :: cb ++ bs).

(** No data extent starts at the LCN of the previous data extent (initially LCN 0): true of every volume whose extents
    do not overlap, except for an extent list that starts at LCN 0. *)
Fixpoint lcns_distinct (prev : Z) (l : list extent) : Prop :=
  match l with
  | [] => True
  | mkExtent (Some lcn) _ :: t => lcn <> prev /\ lcn <> 0 /\ lcns_distinct lcn t
  | mkExtent None _ :: t => lcns_distinct prev t
  end.

(** Sizes and positions of the extents fit into 64 bits. *)
Definition extent_fits (cs : Z) (e : extent) : Prop :=
  1 <= e_count e /\ e_count e * cs <= U64_MAX /\
  match e_lcn e with Some lcn => 0 <= lcn /\ lcn * cs <= U64_MAX | None => True end.

(** ** Values made of extents *)
(** What the on-disk structures of a healthy volume guarantee: extents lie on the device, their sizes and positions fit
    into 64 bits, no data extent is at LCN 0 or repeats the LCN of its predecessor (C08 is about what happens otherwise). *)
Record valid_extents (cs : Z) (img : list Z) (l : list extent) : Prop := {
  ve_cs : 1 <= cs;
  ve_img : zlen img <= TWO64;
  ve_fits : Forall (extent_fits cs) l;
  ve_device : Forall (extent_on_device cs img) l;
  ve_distinct : lcns_distinct 0 l
}.

(** The extents, with every data extent that starts at LCN 0 or at the LCN of the data extent before it replaced by a hole. *)
Fixpoint zero_as_hole (prev : Z) (l : list extent) : list extent :=
  match l with
  | [] => []
  | mkExtent (Some lcn) c :: t => mkExtent (if (lcn =? 0) || (lcn =? prev) then None else Some lcn) c :: zero_as_hole lcn t
  | mkExtent None c :: t => mkExtent None c :: zero_as_hole prev t
  end.

(** Disk position of byte [q] of the value. *)
Fixpoint disk_position (cs : Z) (l : list extent) (q : Z) : position :=
  match l with
  | [] => None
  | e :: t =>
      if q <? e_count e * cs then match e_lcn e with Some lcn => Some (lcn * cs + q) | None => None end
      else disk_position cs t (q - e_count e * cs)
  end.

(** [q] is where an extent ends. *)
Definition extent_end (cs : Z) (l : list extent) (q : Z) : Prop :=
  exists l1 e l2, l = l1 ++ e :: l2 /\ q = extents_size cs (l1 ++ [e]).

(** A history in which no read goes beyond byte [lim] of the value. *)
Fixpoint reads_within (lim : Z) (content : list Z) (size p : Z) (l : list op) : Prop :=
  match l with
  | [] => True
  | ORead n :: t => (p < size -> Z.min (p + n) size <= lim) /\ reads_within lim content size (fst (cursor_step content size p (ORead n))) t
  | OSeek s :: t => reads_within lim content size (fst (cursor_step content size p (OSeek s))) t
  end.

(** Device and reader after a history. *)
Fixpoint reader_exec {S} (read : S -> Z -> dev -> dev * (S * res (list Z)))
  (seek : S -> seekfrom -> dev -> dev * (S * res Z)) (s : S) (d : dev) (l : list op) : dev * S :=
  match l with
  | [] => (d, s)
  | o :: t => let '(d', s', _) := reader_step read seek s d o in reader_exec read seek s' d' t
  end.

(** Several readers of the same kind that share one device: operation [(i, o)] applies [o] to reader [i].
    The result is tagged with the reader. *)
Definition set_at {S} (f : nat -> S) (i : nat) (s : S) : nat -> S := fun j => if Nat.eqb j i then s else f j.
Fixpoint multi_run {S} (read : S -> Z -> dev -> dev * (S * res (list Z)))
  (seek : S -> seekfrom -> dev -> dev * (S * res Z)) (f : nat -> S) (d : dev) (l : list (nat * op)) : list (nat * opres) :=
  match l with
  | [] => []
  | (i, o) :: t =>
      let '(d', s', r) := reader_step read seek (f i) d o in (i, r) :: multi_run read seek (set_at f i s') d' t
  end.
(** The part of a tagged list that belongs to [i]. *)
Fixpoint of_reader {A} (i : nat) (l : list (nat * A)) : list A :=
  match l with
  | [] => []
  | (j, x) :: t => if Nat.eqb j i then x :: of_reader i t else of_reader i t
  end.

(** ** Records protected by an update sequence array *)
(** Byte [k] of [l]. *)
Definition byte_at (l : list Z) (k : Z) : option Z := nth_error l (Z.to_nat k).

(** Position of the last two bytes of 512-byte block number [i]. *)
Definition block_end (i : Z) : Z := 512 * i + 510.

(** [k] belongs to the last two bytes of one of the first [count] blocks. *)
Definition at_block_end (count k : Z) : Prop := exists i, 0 <= i < count /\ block_end i <= k < block_end i + 2.

(** [prot] is [orig] as it is written to disk: the update sequence number [usn] is stored at [off] and in the last two bytes
    of each of the [count] blocks, and the original contents of these are saved in the array behind [off]. *)
Record is_protected (orig prot : list Z) (off count : Z) (usn : list Z) : Prop := {
  pr_len : zlen prot = zlen orig;
  pr_usn_len : zlen usn = 2;
  pr_usn : slice prot off (off + 2) = usn;
  pr_saved : forall i, 0 <= i < count ->
    slice prot (off + 2 + 2 * i) (off + 4 + 2 * i) = slice orig (block_end i) (block_end i + 2);
  pr_marked : forall i, 0 <= i < count -> slice prot (block_end i) (block_end i + 2) = usn;
  pr_rest : forall k, 0 <= k -> ~ off <= k < off + 2 + 2 * count -> ~ at_block_end count k -> byte_at prot k = byte_at orig k
}.

(** The array does not cover a block end (true for all NTFS records: it lies behind the header, before byte 510). *)
Definition array_clear (off count : Z) : Prop :=
  forall k, off <= k < off + 2 + 2 * count -> ~ at_block_end count k.

(** ** Boot sectors, per the documented NTFS boot sector layout *)
Definition power_of_two (n : Z) : Prop := exists k, 0 <= k /\ n = 2 ^ k.

(** Sectors per cluster: the byte itself if at most 128, otherwise 2 to the power of its negated signed value (at most 12). *)
Definition sectors_per_cluster_code (c spc : Z) : Prop :=
  (1 <= c <= 128 /\ power_of_two c /\ spc = c) \/ (244 <= c <= 255 /\ spc = 2 ^ (256 - c)).

(** File record size: a positive signed byte counts clusters, a negative one is a negated power of two (10 to 12). *)
Definition record_size_code (c cluster_size size : Z) : Prop :=
  (1 <= c <= 127 /\ size = c * cluster_size) \/ (244 <= c <= 246 /\ size = 2 ^ (256 - c)).

(** The geometry that the 512 bytes [b] describe. *)
Record boot_describes (b : list Z) (sector cluster size mft record serial : Z) : Prop := {
  bd_signature : slice b 510 512 = [85; 170];
  bd_sector : sector = field 2 b 11 /\ power_of_two sector /\ 512 <= sector <= 4096;
  bd_cluster : exists spc, sectors_per_cluster_code (field 1 b 13) spc /\ cluster = spc * sector /\ 512 <= cluster <= 2097152;
  bd_size : size = field 8 b 40 * sector /\ size <= U64_MAX;
  bd_mft : mft = field 8 b 48 * cluster /\ 0 < field 8 b 48 /\ mft <= U64_MAX;
  bd_record : record_size_code (field 1 b 64) cluster record;
  bd_serial : serial = field 8 b 72
}.

(** The update sequence array announced by the header (offset at 4, count including the number itself at 6) and the blocks it
    covers lie inside the record. *)
Definition usa_fits (data : list Z) : Prop :=
  let off := field 2 data 4 in let cnt := field 2 data 6 in
  off + 2 <= zlen data /\ 1 <= cnt /\ off + 2 * cnt <= zlen data /\ (cnt - 1) * 512 <= zlen data.

(** ** Attributes of a record *)
(** The length field of the attribute at [off], and whether a whole attribute lies at [off]. *)
Definition attr_len_at (data : list Z) (off : Z) : Z := field 4 data (off + 4).
Definition attr_fits (data : list Z) (off : Z) : Prop :=
  off + 16 <= zlen data /\ 16 <= attr_len_at data off /\ off + attr_len_at data off <= zlen data.
Definition end_marker (data : list Z) (off : Z) : Prop := field 4 data off = 4294967295.

(** The offsets of the attributes from [off] on. The flag tells whether the sequence ends regularly (end marker or end of
    the record) or at a malformed attribute. *)
Inductive attr_walk (data : list Z) : Z -> list Z -> bool -> Prop :=
| walk_short off : zlen data < off + 4 -> attr_walk data off [] true
| walk_marker off : off + 4 <= zlen data -> end_marker data off -> attr_walk data off [] true
| walk_bad off : off + 4 <= zlen data -> ~ end_marker data off -> ~ attr_fits data off -> attr_walk data off [] false
| walk_attr off l b : ~ end_marker data off -> attr_fits data off ->
    attr_walk data (off + attr_len_at data off) l b -> attr_walk data off (off :: l) b.

(** Attribute types that exist. *)
Definition type_known (ty : Z) : Prop := In ty [16; 32; 48; 64; 80; 96; 112; 128; 144; 160; 176; 192; 208; 224; 240; 256; 4294967295].

(** The fields of the attribute at [off]. *)
Definition attr_type_at (data : list Z) (off : Z) : Z := field 4 data off.
Definition attr_resident_at (data : list Z) (off : Z) : Prop := field 1 data (off + 8) = 0.
Definition attr_instance_at (data : list Z) (off : Z) : Z := field 2 data (off + 14).
(** Its name: the bytes given by name offset and length. *)
Definition attr_name_at (data : list Z) (off : Z) (name : list Z) : Prop :=
  let no := field 2 data (off + 10) in let nl := 2 * field 1 data (off + 9) in
  (no = 0 \/ nl = 0) /\ name = [] \/
  no <> 0 /\ nl <> 0 /\ no + nl <= attr_len_at data off /\ name = slice data (off + no) (off + no + nl).
(** Its resident value. *)
Definition attr_value_at (data : list Z) (off : Z) (value : list Z) : Prop :=
  let vo := field 2 data (off + 20) in let vl := field 4 data (off + 16) in
  vo + vl <= attr_len_at data off /\ value = slice data (off + vo) (off + vo + vl).

(** UTF-16LE bytes and the code units they encode. *)
Inductive utf16 : list Z -> list Z -> Prop :=
| utf16_nil : utf16 [] []
| utf16_unit lo hi bs us : utf16 bs us -> utf16 (lo :: hi :: bs) (lo + 256 * hi :: us).

(** What a top-level lookup looks for: a type, and possibly a name (code units) and an instance. *)
Definition is_match (data : list Z) (ty : Z) (name : option (list Z)) (inst : option Z) (off : Z) : Prop :=
  attr_type_at data off = ty /\
  (forall i, inst = Some i -> attr_instance_at data off = i) /\
  (forall n, name = Some n -> exists bs, attr_name_at data off bs /\ utf16 bs n).
(** An attribute that the lookup passes over: of another type, instance or (well-formed) name. *)
Definition is_other (data : list Z) (ty : Z) (name : option (list Z)) (inst : option Z) (off : Z) : Prop :=
  type_known (attr_type_at data off) /\
  (attr_type_at data off <> ty \/
   (exists i, inst = Some i /\ attr_instance_at data off <> i) \/
   (exists n bs, name = Some n /\ attr_name_at data off bs /\ ~ utf16 bs n)).

(** An attribute on which the lookup fails: of an unknown type, or a candidate whose name is malformed. *)
Definition is_malformed (data : list Z) (ty : Z) (name : option (list Z)) (inst : option Z) (off : Z) : Prop :=
  ~ type_known (attr_type_at data off) \/
  (attr_type_at data off = ty /\ (forall i, inst = Some i -> attr_instance_at data off = i) /\ name <> None /\
   forall bs, ~ attr_name_at data off bs).

(** ** File records *)
(** [data] is the record whose on-disk form (with update sequence numbers) is [prot]. *)
Record stored_as (data prot : list Z) : Prop := {
  st_fits : usa_fits prot;
  st_len : zlen data = zlen prot;
  st_marked : forall i, 0 <= i < field 2 prot 6 - 1 ->
    slice prot (block_end i) (block_end i + 2) = slice prot (field 2 prot 4) (field 2 prot 4 + 2);
  st_restored : forall i, 0 <= i < field 2 prot 6 - 1 ->
    slice data (block_end i) (block_end i + 2) = slice prot (field 2 prot 4 + 2 + 2 * i) (field 2 prot 4 + 4 + 2 * i);
  st_rest : forall k, 0 <= k -> ~ at_block_end (field 2 prot 6 - 1) k -> byte_at data k = byte_at prot k
}.
(** A valid file record: "FILE", used size at most allocated size at most record size. *)
Definition file_record_ok (data : list Z) : Prop :=
  slice data 0 4 = [70; 73; 76; 69] /\ field 4 data 28 <= zlen data /\ field 4 data 24 <= field 4 data 28.

(** The call returns, with a value or an error (as opposed to a panic or endless loop). *)
Definition returns {A} (r : res A) : Prop := match r with Ok _ | Err _ => True | _ => False end.

(** The MFT: the record at [mp] is a valid file record whose first $DATA attribute is non-resident, nonempty, and has the extents [l]. *)
Record mft_at (img : list Z) (mp frs : Z) (data : list Z) (l : list extent) : Prop := {
  ma_img : 0 <= mp /\ mp + frs <= zlen img;
  ma_stored : stored_as data (slice img mp (mp + frs)) /\ file_record_ok data;
  ma_clear : array_clear (field 2 (slice img mp (mp + frs)) 4) (field 2 (slice img mp (mp + frs)) 6 - 1);
  ma_data : exists before o after b, attr_walk data (field 2 data 20) (before ++ o :: after) b /\
    Forall (fun x => type_known (attr_type_at data x) /\ attr_type_at data x <> 128) before /\
    attr_type_at data o = 128 /\ ~ attr_resident_at data o /\ o + 56 <= zlen data /\ 0 < field 8 data (o + 48) /\
    field 2 data (o + 32) <= attr_len_at data o /\
    encodes 0 l (slice data (o + field 2 data (o + 32)) (o + attr_len_at data o))
}.

(** The bytes [a..b) lie in one extent, which is not a hole. *)
Definition in_one_extent (cs : Z) (l : list extent) (a b : Z) : Prop :=
  exists l1 e l2, l = l1 ++ e :: l2 /\ e_lcn e <> None /\ extents_size cs l1 <= a /\ a < b /\ b <= extents_size cs (l1 ++ [e]).

(** An iterator that uses the device, as an iterator on pairs. *)
Definition with_dev {S A} (next : S -> dev -> dev * (S * item A)) (sd : S * dev) : (S * dev) * item A :=
  let '(d', (s', x)) := next (fst sd) (snd sd) in ((s', d'), x).

(** None of the attributes at [offs] is an $ATTRIBUTE_LIST. *)
Definition no_attribute_list (data : list Z) (offs : list Z) : Prop := Forall (fun o => attr_type_at data o <> 32) offs.

(** The effect of a read of [n] bytes with result [x] on the stream position and the length of a value. *)
Definition moves (pos pos' len len' n : Z) (x : res (list Z)) : Prop :=
  len' = len /\
  match x with
  | Ok bs => zlen bs <= n /\ pos' = pos + zlen bs /\ (bs = [] \/ pos' <= len)
  | _ => pos <= pos' <= Z.max pos len
  end.
