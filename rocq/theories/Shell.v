(** * The example program: examples/ntfs-shell/main.rs.

    Texts (arguments, names) are represented by their UTF-16 code units; [to_string_lossy] is taken to keep the units. The layout of what is
    printed, headings and help texts are left out; for the creation of the output file of [get] see Host.v. The fuel bounds all loops. *)
From Verif Require Import Base Dev Types Record DataRuns Stream NonResident Resident BootSector Attribute File Structured AttrList Upcase Index Time Volume.

(** examples/ntfs-shell/main.rs 94-97, 236-239, 268-271, 278-281, 514-517, 632, 645-648, 663: what a command tells the user instead of doing what it was asked to ([bail!] and
    [println!] with an early return). *)
Inductive message := MissingArgument | BadNumber | NoSuchFile | NotADirectory | NoStream | NoFileName | NoSuchCommand.
(** No code: the outcome of a command that did not fail with an error of the library. *)
Inductive answer (A : Type) := Done (a : A) | Said (m : message).
Arguments Done {A} a.
Arguments Said {A} m.

(** examples/ntfs-shell/main.rs: what the commands print: an entry of a directory (317-322), an attribute (177-187; [inner]: one found through an
    attribute list), a data run of it (195-202), a file record (334-341), standard information (363-422, times in nanoseconds since 1970), a file
    name (431-442), a data stream (448-452), and four parts of the information on a volume (461-463, 465-471, 473-475, 477-482). *)
Inductive line :=
| LEntry (directory : bool) (name : list Z)
| LAttribute (inner : bool) (instance ty : Z) (resident : bool) (number : Z) (start : position) (length : Z) (name : list Z)
| LRun (inner : bool) (i : Z) (start : position) (length : Z)
| LRecord (allocated : Z) (start : position) (used links : Z) (directory : bool) (number sequence : Z)
| LStandard (attributes access creation modification record_modification : Z) (extended : option std_info3)
| LName (name : list Z) (namespace parent : Z)
| LStream (name : list Z) (length : Z)
| LGeometry (cluster record : Z) (mft : position)
| LVersion (major minor : Z)
| LSize (sector serial size : Z)
| LLabel (name : option (list Z)).

(** No code: computations that print lines and use the device. *)
Definition P (A : Type) := dev -> dev * (list line * res A).
(** No code, see [P]: an outcome. *)
Definition pret {A} (a : A) : P A := fun d => (d, ([], Ok a)).
(** No code, see [P]: an outcome or error. *)
Definition plift {A} (r : res A) : P A := fun d => (d, ([], r)).
(** No code, see [P]: a use of the device. *)
Definition pm {A} (m : M A) : P A := fun d => let '(d1, r) := m d in (d1, ([], r)).
(** No code, see [P]: a line. *)
Definition print (x : line) : P unit := fun d => (d, ([x], Ok tt)).
(** No code, see [P]: the [?] operator. *)
Definition pbind {A B} (m : P A) (f : A -> P B) : P B := fun d =>
  match m d with
  | (d1, (l1, Ok a)) => let '(d2, (l2, r)) := f a d1 in (d2, (l1 ++ l2, r))
  | (d1, (l1, Err x)) => (d1, (l1, Err x))
  | (d1, (l1, Panic)) => (d1, (l1, Panic))
  | (d1, (l1, OutOfFuel)) => (d1, (l1, OutOfFuel))
  end.
Notation "'pdo' x <- m ; k" := (pbind m (fun x => k))
  (at level 200, x name, m at level 100, k at level 200, right associativity).

(** examples/ntfs-shell/main.rs 24-32 [CommandInfo]: the directories from the current one (the last one of the vector) up to the first one,
    and the text of the prompt. *)
Record shell := mkShell { sh_dirs : list file; sh_text : list Z }.

(** examples/ntfs-shell/main.rs 45-57 [main], up to the command loop; the device is used without [SectorReader] and [BufReader]. *)
Definition shell_open (fuel : nat) : M (ntfs * shell) :=
  do nt0 <- ntfs_new;
  do nt <- read_upcase_table fuel nt0;
  do root <- ntfs_root_directory nt;
  mret (nt, mkShell [root] []).

(** [char::to_digit] of the standard library, used by examples/ntfs-shell/main.rs 637-638. *)
Definition to_digit (radix c : Z) : option Z :=
  let v := if (48 <=? c) && (c <=? 57) then c - 48
           else if (97 <=? c) && (c <=? 122) then c - 87
           else if (65 <=? c) && (c <=? 90) then c - 55 else radix in
  if v <? radix then Some v else None.
(** The loop of [u64::from_str_radix], used by examples/ntfs-shell/main.rs 637-638. *)
Fixpoint parse_digits (radix acc : Z) (l : list Z) : option Z :=
  match l with
  | [] => Some acc
  | c :: t =>
      match to_digit radix c with
      | Some v => if acc * radix + v <=? U64_MAX then parse_digits radix (acc * radix + v) t else None
      | None => None
      end
  end.
(** [u64::from_str_radix], used by examples/ntfs-shell/main.rs 637-638: a leading plus sign is accepted, nothing or a lone sign is not. *)
Definition from_str_radix (radix : Z) (l : list Z) : option Z :=
  match l with
  | [] => None
  | c :: t => if c =? 43 then match t with [] => None | _ => parse_digits radix 0 t end else parse_digits radix 0 l
  end.
(** examples/ntfs-shell/main.rs 636-639: a number, in hexadecimal behind "0x". *)
Definition parse_number (l : list Z) : option Z :=
  match l with
  | a :: b :: t => if (a =? 48) && (b =? 120) then from_str_radix 16 t else from_str_radix 10 l
  | _ => from_str_radix 10 l
  end.

(** examples/ntfs-shell/main.rs 260-263, 304-307, 651-654: [info.current_directory.last().unwrap()]. *)
Definition current_dir (sh : shell) : res file := match sh_dirs sh with f :: _ => Ok f | [] => Panic end.

(** examples/ntfs-shell/main.rs 627-666 [parse_file_arg]. *)
Definition parse_file_arg (fuel : nat) (nt : ntfs) (sh : shell) (arg : list Z) : M (answer file) :=
  match arg with
  | [] => mret (Said MissingArgument)
  | c :: t =>
      if c =? 47 then
        match parse_number t with
        | Some n => do f <- ntfs_file nt n; mret (Done f)
        | None => mret (Said BadNumber)
        end
      else
        try dir <- current_dir sh;
        do ix <- directory_index fuel nt dir;
        fun d =>
          match file_name_find fuel nt ix arg d with
          | (d1, Some (Ok e)) => (do f <- ie_to_file nt e; mret (Done f)) d1
          | (d1, Some (Err x)) => (d1, Err x)
          | (d1, Some Panic) => (d1, Panic)
          | (d1, Some OutOfFuel) => (d1, OutOfFuel)
          | (d1, None) => (d1, Ok (Said NoSuchFile))
          end
  end.

(** examples/ntfs-shell/main.rs 227-239: the loop of [best_file_name] over the namespaces. *)
Fixpoint first_file_name (fuel : nat) (nt : ntfs) (f : file) (parent : Z) (namespaces : list (option Z)) : M (answer file_name) :=
  match namespaces with
  | [] => mret (Said NoFileName)
  | ns :: t =>
      do x <- file_name_of fuel nt f ns (Some parent);
      match x with
      | Some fn => mret (Done fn)
      | None => first_file_name fuel nt f parent t
      end
  end.
(** examples/ntfs-shell/main.rs 210-240 [best_file_name]: Win32 (1), then Win32AndDos (3), then any. *)
Definition best_file_name (fuel : nat) (nt : ntfs) (f : file) (parent : Z) : M (answer file_name) :=
  first_file_name fuel nt f parent [Some 1; Some 3; None].

(** examples/ntfs-shell/main.rs 257 [rfind]: what stands before the last backslash (92), if there is one. *)
Fixpoint before_last_backslash (l : list Z) : option (list Z) :=
  match l with
  | [] => None
  | c :: t =>
      match before_last_backslash t with
      | Some r => Some (c :: r)
      | None => if c =? 92 then Some [] else None
      end
  end.
(** examples/ntfs-shell/main.rs 251-258: [cd ..]; [rfind] and [truncate]. *)
Definition cd_up (sh : shell) : shell :=
  match sh_text sh with
  | [] => sh
  | _ => mkShell (tl (sh_dirs sh)) (match before_last_backslash (sh_text sh) with Some r => r | None => [] end)
  end.
(** examples/ntfs-shell/main.rs 289-294: the directory becomes the current one. *)
Definition cd_enter (sh : shell) (f : file) (fn : file_name) : shell :=
  mkShell (f :: sh_dirs sh) ((match sh_text sh with [] => [] | _ => sh_text sh ++ [92] end) ++ units (fn_name fn)).

(** examples/ntfs-shell/main.rs 242-298 [cd]: the shell afterwards (which is the same one after a message or an error). *)
Definition cd (fuel : nat) (nt : ntfs) (sh : shell) (arg : list Z) : M (answer shell) :=
  match arg with
  | [] => mret (Done sh)
  | _ =>
      if list_eqb arg [46; 46] then mret (Done (cd_up sh))
      else
        try dir <- current_dir sh;
        do ix <- directory_index fuel nt dir;
        fun d =>
          match file_name_find fuel nt ix arg d with
          | (d1, None) => (d1, Ok (Said NoSuchFile))
          | (d1, Some (Ok e)) =>
              match ie_key fn_from_slice e with
              | None => (d1, Panic)
              | Some (Ok key) =>
                  if negb (fn_is_directory key) then (d1, Ok (Said NotADirectory))
                  else (do f <- ie_to_file nt e;
                        do name <- best_file_name fuel nt f (f_number dir);
                        match name with
                        | Done fn => mret (Done (cd_enter sh f fn))
                        | Said m => mret (Said m)
                        end) d1
              | Some (Err x) => (d1, Err x)
              | Some Panic => (d1, Panic)
              | Some OutOfFuel => (d1, OutOfFuel)
              end
          | (d1, Some (Err x)) => (d1, Err x)
          | (d1, Some Panic) => (d1, Panic)
          | (d1, Some OutOfFuel) => (d1, OutOfFuel)
          end
  end.

(** examples/ntfs-shell/main.rs 311-325: the loop of [dir]; [acc] has been printed so far: for each entry whether it is a directory,
    and its name. *)
Fixpoint dir_loop (fuel k : nat) (nt : ntfs) (ix : index) (st : ientries) (acc : list line) (d : dev) : dev * (list line * res unit) :=
  match k with
  | O => (d, (acc, OutOfFuel))
  | S k' =>
      match entries_next fuel nt ix st d with
      | (d1, (_, None)) => (d1, (acc, Ok tt))
      | (d1, (st1, Some (Ok e))) =>
          match ie_key fn_from_slice e with
          | None => (d1, (acc, Panic))
          | Some (Ok key) => dir_loop fuel k' nt ix st1 (acc ++ [LEntry (fn_is_directory key) (units (fn_name key))]) d1
          | Some (Err x) => (d1, (acc, Err x))
          | Some Panic => (d1, (acc, Panic))
          | Some OutOfFuel => (d1, (acc, OutOfFuel))
          end
      | (d1, (_, Some (Err x))) => (d1, (acc, Err x))
      | (d1, (_, Some Panic)) => (d1, (acc, Panic))
      | (d1, (_, Some OutOfFuel)) => (d1, (acc, OutOfFuel))
      end
  end.
(** examples/ntfs-shell/main.rs 300-326 [dir]. *)
Definition dir (fuel : nat) (nt : ntfs) (sh : shell) (d : dev) : dev * (list line * res unit) :=
  match (try f <- current_dir sh; directory_index fuel nt f) d with
  | (d1, Ok ix) => dir_loop fuel fuel nt ix (index_entries ix) [] d1
  | (d1, Err x) => (d1, ([], Err x))
  | (d1, Panic) => (d1, ([], Panic))
  | (d1, OutOfFuel) => (d1, ([], OutOfFuel))
  end.

(** examples/ntfs-shell/main.rs 492-495: what stands before and behind the first colon (58). *)
Fixpoint split_colon (l : list Z) : list Z * list Z :=
  match l with
  | [] => ([], [])
  | c :: t => if c =? 58 then ([], t) else let '(a, b) := split_colon t in (c :: a, b)
  end.
(** examples/ntfs-shell/main.rs 530-539: the loop of [get]; [acc] has been written to the output file so far ([write_all] does not fail). *)
Fixpoint get_loop (fuel k : nat) (v : aval) (acc : list Z) (d : dev) : dev * (list Z * res unit) :=
  match k with
  | O => (d, (acc, OutOfFuel))
  | S k' =>
      match av_read fuel v 4096 d with
      | (d1, (v1, Ok bs)) => if zlen bs =? 0 then (d1, (acc, Ok tt)) else get_loop fuel k' v1 (acc ++ bs) d1
      | (d1, (_, Err x)) => (d1, (acc, Err x))
      | (d1, (_, Panic)) => (d1, (acc, Panic))
      | (d1, (_, OutOfFuel)) => (d1, (acc, OutOfFuel))
      end
  end.
(** examples/ntfs-shell/main.rs 511-521: the part of [get] before the loop. *)
Definition get_value (fuel : nat) (nt : ntfs) (sh : shell) (arg : list Z) : M (answer aval) :=
  let '(file_name, stream) := split_colon arg in
  do x <- parse_file_arg fuel nt sh file_name;
  match x with
  | Said m => mret (Said m)
  | Done f =>
      do y <- file_data fuel nt f stream;
      match y with
      | None => mret (Said NoStream)
      | Some i => try a <- item_to_attribute i; do v <- attr_value nt a; mret (Done v)
      end
  end.
(** examples/ntfs-shell/main.rs 487-540 [get]: what is written to the output file, and the outcome. *)
Definition get (fuel : nat) (nt : ntfs) (sh : shell) (arg : list Z) (d : dev) : dev * (list Z * res (answer unit)) :=
  match get_value fuel nt sh arg d with
  | (d1, Ok (Done v)) => let '(d2, (bs, r)) := get_loop fuel fuel v [] d1 in (d2, (bs, let? _u := r in Ok (Done tt)))
  | (d1, Ok (Said m)) => (d1, ([], Ok (Said m)))
  | (d1, Err x) => (d1, ([], Err x))
  | (d1, Panic) => (d1, ([], Panic))
  | (d1, OutOfFuel) => (d1, ([], OutOfFuel))
  end.

(** ** Information *)
(** examples/ntfs-shell/main.rs 193-203: the loop over the data runs ([data_runs] of src/attribute_value/non_resident.rs 81-83 starts from the first one). *)
Fixpoint run_lines (k : nat) (cs : Z) (data : list Z) (p : position) (inner : bool) (i : Z) (s : druns) : P unit :=
  match k with
  | O => plift OutOfFuel
  | S k' =>
      match druns_next cs data p s with
      | (_, None) => pret tt
      | (s', Some x) =>
          pdo r <- plift x;
          pdo _u <- print (LRun inner i (run_data_position r) (r_alloc r));
          run_lines k' cs data p inner (i + 1) s'
      end
  end.
(** examples/ntfs-shell/main.rs 165-208 [attr_print_attribute]. *)
Definition attr_print (fuel : nat) (nt : ntfs) (with_runs inner : bool) (number : Z) (a : attribute) : P unit :=
  pdo instance <- plift (attr_instance a);
  pdo ty <- plift (attr_ty a);
  pdo resident <- plift (attr_is_resident a);
  pdo length <- plift (attr_value_length a);
  pdo name <- plift (attr_name a);
  pdo _u <- print (LAttribute inner instance ty resident number (attr_position a) length (units name));
  if with_runs then
    pdo v <- pm (attr_value nt a);
    match v with
    | AVSimple (SVNr x) => run_lines fuel (nv_cs x) (nv_data x) (nv_position x) inner 0 druns_start
    | _ => pret tt
    end
  else pret tt.
(** examples/ntfs-shell/main.rs 139-158: the loop over the entries of an attribute list. *)
Fixpoint list_lines (fuel k : nat) (nt : ntfs) (with_runs : bool) (self : Z) (l : alist) (d : dev) : dev * (list line * res unit) :=
  match k with
  | O => (d, ([], OutOfFuel))
  | S k' =>
      match alist_next l d with
      | (d1, (_, None)) => (d1, ([], Ok tt))
      | (d1, (l1, Some x)) =>
          (pdo e <- plift x;
           if le_number e =? self then list_lines fuel k' nt with_runs self l1
           else
             pdo f <- pm (le_to_file nt e);
             pdo a <- plift (le_to_attribute e f);
             pdo _u <- attr_print fuel nt with_runs true (le_number e) a;
             list_lines fuel k' nt with_runs self l1) d1
      end
  end.
(** examples/ntfs-shell/main.rs 122-160: the loop of [attr] over the attributes of the file record. [structured_value] of an attribute list is
    [attr_value_simple] and [alist_of_sval], since these attributes do not belong to a list. *)
Fixpoint attr_loop (fuel k : nat) (nt : ntfs) (with_runs : bool) (f : file) (s : Z) : P unit :=
  match k with
  | O => plift OutOfFuel
  | S k' =>
      match raw_next f s with
      | (_, None) => pret tt
      | (s', Some x) =>
          pdo a <- plift x;
          pdo ty <- plift (attr_ty a);
          pdo _u <- attr_print fuel nt with_runs false (f_number f) a;
          pdo _v <- (if ty =? TY_AttributeList
                     then pdo v <- plift (attr_value_simple (cluster_size nt) a); list_lines fuel fuel nt with_runs (f_number f) (alist_of_sval v)
                     else pret tt);
          attr_loop fuel k' nt with_runs f s'
      end
  end.
(** examples/ntfs-shell/main.rs 121-162: [attr] for a file. *)
Definition attr_file (fuel : nat) (nt : ntfs) (with_runs : bool) (f : file) : P unit :=
  pdo s <- plift (raw_start f); attr_loop fuel fuel nt with_runs f s.
(** examples/ntfs-shell/main.rs 107-163 [attr]. *)
Definition attr (fuel : nat) (nt : ntfs) (sh : shell) (with_runs : bool) (arg : list Z) : P (answer unit) :=
  pdo x <- pm (parse_file_arg fuel nt sh arg);
  match x with
  | Said m => pret (Said m)
  | Done f => pdo _u <- attr_file fuel nt with_runs f; pret (Done tt)
  end.

(** examples/ntfs-shell/main.rs 359-425 [fileinfo_std], printed in one piece; formatting a time does not fail. *)
Definition standard_line (a : attribute) : P unit :=
  pdo v <- plift (resident_structured si_new TY_StandardInformation a);
  pdo access <- plift (datetime_from_time (si_access_time v));
  pdo creation <- plift (datetime_from_time (si_creation_time v));
  pdo modification <- plift (datetime_from_time (si_modification_time v));
  pdo record_modification <- plift (datetime_from_time (si_mft_record_modification_time v));
  print (LStandard (si_file_attributes v) access creation modification record_modification (si_ntfs3 v)).
(** examples/ntfs-shell/main.rs 427-445 [fileinfo_filename]. *)
Definition name_line (fuel : nat) (nt : ntfs) (a : attribute) : P unit :=
  pdo fn <- pm (attr_structured fuel nt fn_new TY_FileName a);
  pdo namespace <- plift (fn_namespace fn);
  print (LName (units (fn_name fn)) namespace (fr_number (fn_parent fn))).
(** examples/ntfs-shell/main.rs 447-455 [fileinfo_data]. *)
Definition stream_line (a : attribute) : P unit :=
  pdo name <- plift (attr_name a);
  pdo length <- plift (attr_value_length a);
  print (LStream (units name) length).
(** examples/ntfs-shell/main.rs 348-353: the [match] in the loop of [fileinfo]; an attribute of an unknown type is passed over. *)
Definition attribute_info (fuel : nat) (nt : ntfs) (a : attribute) : P unit :=
  match attr_ty a with
  | Ok ty =>
      if ty =? TY_StandardInformation then standard_line a
      else if ty =? TY_FileName then name_line fuel nt a
      else if ty =? TY_Data then stream_line a
      else pret tt
  | Err _ => pret tt
  | Panic => plift Panic
  | OutOfFuel => plift OutOfFuel
  end.
(** examples/ntfs-shell/main.rs 343-354: the loop of [fileinfo]. *)
Fixpoint info_loop (fuel k : nat) (nt : ntfs) (st : attrs) (d : dev) : dev * (list line * res unit) :=
  match k with
  | O => (d, ([], OutOfFuel))
  | S k' =>
      match attrs_next fuel nt st d with
      | (d1, (_, None)) => (d1, ([], Ok tt))
      | (d1, (st1, Some x)) =>
          (pdo i <- plift x;
           pdo a <- plift (item_to_attribute i);
           pdo _u <- attribute_info fuel nt a;
           info_loop fuel k' nt st1) d1
      end
  end.
(** examples/ntfs-shell/main.rs 334-341: what [fileinfo] prints of the file record (in one piece). *)
Definition record_line (f : file) : P unit :=
  pdo allocated <- plift (f_allocated_size f);
  pdo used <- plift (f_data_size f);
  pdo links <- plift (f_hard_link_count f);
  pdo directory <- plift (f_is_directory f);
  pdo sequence <- plift (f_sequence_number f);
  print (LRecord allocated (f_position f) used links directory (f_number f) sequence).
(** examples/ntfs-shell/main.rs 334-357: [fileinfo] for a file. *)
Definition fileinfo_file (fuel : nat) (nt : ntfs) (f : file) : P unit :=
  pdo _u <- record_line f;
  pdo st <- plift (attrs_start f);
  info_loop fuel fuel nt st.
(** examples/ntfs-shell/main.rs 328-357 [fileinfo]. *)
Definition fileinfo (fuel : nat) (nt : ntfs) (sh : shell) (arg : list Z) : P (answer unit) :=
  pdo x <- pm (parse_file_arg fuel nt sh arg);
  match x with
  | Said m => pret (Said m)
  | Done f => pdo _u <- fileinfo_file fuel nt f; pret (Done tt)
  end.

(** examples/ntfs-shell/main.rs 477-482: the name of the volume, [None] also after an error. *)
Definition label_line (nt : ntfs) : P unit := fun d =>
  match volume_name nt d with
  | (d1, Some (Ok n)) => print (LLabel (Some (units n))) d1
  | (d1, Some Panic) => (d1, ([], Panic))
  | (d1, Some OutOfFuel) => (d1, ([], OutOfFuel))
  | (d1, _) => print (LLabel None) d1
  end.
(** examples/ntfs-shell/main.rs 457-485 [fsinfo]. *)
Definition fsinfo (nt : ntfs) : P unit :=
  pdo _u <- print (LGeometry (cluster_size nt) (file_record_size nt) (mft_position nt));
  pdo v <- pm (volume_info nt);
  pdo _v <- print (LVersion (vi_major_version v) (vi_minor_version v));
  pdo _w <- print (LSize (sector_size nt) (serial_number nt) (ntfs_size nt));
  label_line nt.

(** ** Sessions *)
(** examples/ntfs-shell/main.rs 83-98: the commands, with their argument. *)
Inductive command :=
| DoCd (arg : list Z) | DoDir | DoGet (arg : list Z) | DoAttr (with_runs : bool) (arg : list Z) | DoFileinfo (arg : list Z) | DoFsinfo
| DoHelp (arg : list Z) | DoNothing | DoUnknown (command : list Z).
(** No code: what the user sees of a command: the lines printed, the bytes in the output file, and its outcome: done, a message, or an error of
    the library. *)
Record reply := mkReply { re_lines : list line; re_data : list Z; re_outcome : res (answer unit) }.

(** examples/ntfs-shell/main.rs 83-98: the dispatch of the commands, without the splitting of the input line; an error leaves the
    shell as it is. The text that [help] (542-606) prints is left out. *)
Definition run_command (fuel : nat) (nt : ntfs) (sh : shell) (c : command) (d : dev) : dev * (shell * reply) :=
  match c with
  | DoCd arg =>
      match cd fuel nt sh arg d with
      | (d1, Ok (Done sh1)) => (d1, (sh1, mkReply [] [] (Ok (Done tt))))
      | (d1, Ok (Said m)) => (d1, (sh, mkReply [] [] (Ok (Said m))))
      | (d1, Err x) => (d1, (sh, mkReply [] [] (Err x)))
      | (d1, Panic) => (d1, (sh, mkReply [] [] Panic))
      | (d1, OutOfFuel) => (d1, (sh, mkReply [] [] OutOfFuel))
      end
  | DoDir => let '(d1, (lines, r)) := dir fuel nt sh d in (d1, (sh, mkReply lines [] (let? _u := r in Ok (Done tt))))
  | DoGet arg => let '(d1, (bs, r)) := get fuel nt sh arg d in (d1, (sh, mkReply [] bs r))
  | DoAttr with_runs arg => let '(d1, (lines, r)) := attr fuel nt sh with_runs arg d in (d1, (sh, mkReply lines [] r))
  | DoFileinfo arg => let '(d1, (lines, r)) := fileinfo fuel nt sh arg d in (d1, (sh, mkReply lines [] r))
  | DoFsinfo => let '(d1, (lines, r)) := fsinfo nt d in (d1, (sh, mkReply lines [] (let? _u := r in Ok (Done tt))))
  | DoHelp _ | DoNothing => (d, (sh, mkReply [] [] (Ok (Done tt))))
  | DoUnknown _ => (d, (sh, mkReply [] [] (Ok (Said NoSuchCommand))))
  end.
(** examples/ntfs-shell/main.rs 67-102: the command loop: the reply to each command, and the prompt after it. A panic ends the program. *)
Fixpoint run_commands (fuel : nat) (nt : ntfs) (sh : shell) (cs : list command) (d : dev) : list (reply * list Z) :=
  match cs with
  | [] => []
  | c :: t =>
      let '(d1, (sh1, r)) := run_command fuel nt sh c d in
      (r, sh_text sh1) :: match re_outcome r with Panic | OutOfFuel => [] | _ => run_commands fuel nt sh1 t d1 end
  end.
(** examples/ntfs-shell/main.rs 34-105 [main], without the argument of the program and the opening of the file. *)
Definition session (fuel : nat) (cs : list command) (d : dev) : res (list (reply * list Z)) :=
  match shell_open fuel d with
  | (d1, Ok (nt, sh)) => Ok (run_commands fuel nt sh cs d1)
  | (_, Err x) => Err x
  | (_, Panic) => Panic
  | (_, OutOfFuel) => OutOfFuel
  end.

(** ** Input lines *)
(** [char::is_whitespace] of the standard library (the White_Space characters of Unicode), used by examples/ntfs-shell/main.rs 78-81. *)
Definition is_whitespace (c : Z) : bool :=
  ((9 <=? c) && (c <=? 13)) || existsb (Z.eqb c) [32; 133; 160; 5760; 8232; 8233; 8239; 8287; 12288] || ((8192 <=? c) && (c <=? 8202)).
(** [str::trim_start] of the standard library, used by examples/ntfs-shell/main.rs 78, 81. *)
Fixpoint trim_start (l : list Z) : list Z :=
  match l with
  | [] => []
  | c :: t => if is_whitespace c then trim_start t else l
  end.
(** [str::trim] of the standard library, used by examples/ntfs-shell/main.rs 78. *)
Definition trim (l : list Z) : list Z := rev (trim_start (rev (trim_start l))).
(** examples/ntfs-shell/main.rs 79-80 [find] and [split_at]: what stands before the first space (32), and the rest. *)
Fixpoint split_space (l : list Z) : list Z * list Z :=
  match l with
  | [] => ([], [])
  | c :: t => if c =? 32 then ([], l) else let '(a, b) := split_space t in (c :: a, b)
  end.
(** examples/ntfs-shell/main.rs 84. *)
Definition W_attr : list Z := [97; 116; 116; 114].
(** examples/ntfs-shell/main.rs 85. *)
Definition W_attr_runs : list Z := W_attr ++ [95; 114; 117; 110; 115].
(** examples/ntfs-shell/main.rs 86. *)
Definition W_cd : list Z := [99; 100].
(** examples/ntfs-shell/main.rs 87. *)
Definition W_dir : list Z := [100; 105; 114].
(** examples/ntfs-shell/main.rs 88. *)
Definition W_exit : list Z := [101; 120; 105; 116].
(** examples/ntfs-shell/main.rs 88. *)
Definition W_quit : list Z := [113; 117; 105; 116].
(** examples/ntfs-shell/main.rs 89. *)
Definition W_fileinfo : list Z := [102; 105; 108; 101; 105; 110; 102; 111].
(** examples/ntfs-shell/main.rs 90. *)
Definition W_fsinfo : list Z := [102; 115; 105; 110; 102; 111].
(** examples/ntfs-shell/main.rs 91. *)
Definition W_get : list Z := [103; 101; 116].
(** examples/ntfs-shell/main.rs 92. *)
Definition W_help : list Z := [104; 101; 108; 112].
(** examples/ntfs-shell/main.rs 78-98: the command that an input line stands for; [None] ends the program. *)
Definition read_command (input : list Z) : option command :=
  let '(word, rest) := split_space (trim input) in
  let arg := trim_start rest in
  if list_eqb word W_attr then Some (DoAttr false arg)
  else if list_eqb word W_attr_runs then Some (DoAttr true arg)
  else if list_eqb word W_cd then Some (DoCd arg)
  else if list_eqb word W_dir then Some DoDir
  else if list_eqb word W_exit || list_eqb word W_quit then None
  else if list_eqb word W_fileinfo then Some (DoFileinfo arg)
  else if list_eqb word W_fsinfo then Some DoFsinfo
  else if list_eqb word W_get then Some (DoGet arg)
  else if list_eqb word W_help then Some (DoHelp arg)
  else match word with [] => Some DoNothing | _ => Some (DoUnknown word) end.
(** examples/ntfs-shell/main.rs 67-98: the commands carried out for these input lines (with their line feed), up to the end of the program. An
    empty line without a line feed is the end of the input (73-76). *)
Fixpoint read_commands (inputs : list (list Z)) : list command :=
  match inputs with
  | [] => []
  | [] :: _ => []
  | input :: t =>
      match read_command input with
      | Some c => c :: read_commands t
      | None => []
      end
  end.
(** examples/ntfs-shell/main.rs 34-105 [main]: a session of input lines. *)
Definition text_session (fuel : nat) (inputs : list (list Z)) (d : dev) : res (list (reply * list Z)) := session fuel (read_commands inputs) d.
