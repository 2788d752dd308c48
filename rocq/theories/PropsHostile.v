(** * C55: nothing but an index can keep the library busy for ever. *)
From Verif Require Import Base Dev Types Record DataRuns Stream NonResident Resident BootSector Attribute File Structured AttrList Upcase Index Shell
  Spec SpecMisc SpecVolume SpecTotal BaseProofs ShellTotalProofs FileExamples IndexExamples AttrListExamples VolumeExamples.

(** C55. In all of these the content of the device and its schedule of short reads, interruptions and faults are any; [opened] and [file_read_from]
    only say that the volume object and the file come from the library. *)
(** Opening a volume and reading the upper case table ends. *)
Theorem C55_opening : forall d, bytes_ok (d_img d) ->
  settles (fun k => (do nt <- ntfs_new; read_upcase_table k nt) d) (fun y => snd y <> OutOfFuel).
Proof. exact opening_ends. Qed.
Print Assumptions C55_opening.

(** Reading a file record by its number ends. *)
Theorem C55_file : forall nt n d, opened nt -> 0 <= n -> bytes_ok (d_img d) -> snd (ntfs_file nt n d) <> OutOfFuel.
Proof. exact file_by_number_ends. Qed.
Print Assumptions C55_file.

(** Every call of the iteration over the attributes of a file (with attribute lists of any content) ends; so does all one can do with the values
    of the attributes that it returns; and after finitely many attributes it returns [None], an error or panics. *)
Theorem C55_attributes : forall nt f st d, opened nt -> file_read_from nt f -> attrs_start f = Ok st -> bytes_ok (d_img d) ->
  (forall n, settles (fun k => iterate (with_dev (attrs_next k nt)) n (st, d))
     (Forall (fun x => x <> Some OutOfFuel /\ forall i, x = Some (Ok i) -> item_ends nt i))) /\
  exists n, settles (fun k => iterate (with_dev (attrs_next k nt)) n (st, d)) (Exists (fun x => forall i, x <> Some (Ok i))).
Proof. exact attributes_end. Qed.
Print Assumptions C55_attributes.

(** Searching an attribute, a data stream or a name ends, and so does what one can do with the value of what was found. *)
Theorem C55_searches : forall nt f d, opened nt -> file_read_from nt f -> bytes_ok (d_img d) ->
  (forall ty name, settles (fun k => find_attribute k nt f ty name d) (fun y => snd y <> OutOfFuel /\ forall i, snd y = Ok i -> item_ends nt i)) /\
  (forall stream, settles (fun k => file_data k nt f stream d) (fun y => snd y <> OutOfFuel /\ forall i, snd y = Ok (Some i) -> item_ends nt i)) /\
  (forall ns parent, settles (fun k => file_name_of k nt f ns parent d) (fun y => snd y <> OutOfFuel)).
Proof. exact searches_end. Qed.
Print Assumptions C55_searches.

(** A session of the example program with commands that do not look up names in directories (those may not end, C29) ends. *)
Theorem C55_session : forall cs d, Forall direct cs -> bytes_ok (d_img d) ->
  settles (fun k => session k cs d) (fun x => x <> OutOfFuel /\ forall l, x = Ok l -> Forall (fun p => re_outcome (fst p) <> OutOfFuel) l).
Proof. exact session_settles. Qed.
Print Assumptions C55_session.

(** The volume of VolumeExamples.v, but record 12 has an attribute list that names an attribute of record 13 twice, then one of itself, one of a record
    outside of the MFT, and goes on with bytes that are no entry. The device is interrupted and fails at times. *)
Definition exh_rec12 : list Z :=
  exv_record 1 (ex_resident 32 1 [] (ex_le32 128 0 13 1 ++ ex_le32 128 0 13 1 ++ ex_le32 128 0 12 1 ++ ex_le32 128 0 99 1 ++ [128; 0; 0; 0; 5; 0; 0; 0])).
Definition exh_img : list Z :=
  exv_boot ++ zrepeat 0 512 ++ exv_rec0 ++ zrepeat 0 4096 ++ exv_rec5 exv_sub ++ zrepeat 0 4096 ++ exv_rec10 ++ exv_rec11 ++ exh_rec12 ++ exv_rec13 ++
  exv_units ex_dir_table ++ zrepeat 2 512 ++ zrepeat 1 512.
Definition exh_dev : dev := mkDev exh_img 0 [RShort 5; RErr Interrupted] [].
Definition exh_ntfs : ntfs := match snd (ntfs_new exh_dev) with Ok nt => nt | _ => mkNtfs 0 0 0 None 0 0 None end.
Definition exh_file : file := match snd (ntfs_file exh_ntfs 12 exh_dev) with Ok f => f | _ => mkFile (mkRecord [] None) 0 end.
Example C55_example : bytes_ok (d_img exh_dev) /\ opened exh_ntfs /\ file_read_from exh_ntfs exh_file /\
  (exists st, attrs_start exh_file = Ok st /\
    map (fun x => match x with Some (Ok i) => Some (ai_offset i) | _ => None end) (iterate (with_dev (attrs_next 9 exh_ntfs)) 4 (st, exh_dev)) = [Some 152; None; None; None]) /\
  Forall direct [DoGet [47; 49; 50]; DoCd [46; 46]; DoGet [47; 57; 57]; DoAttr true [47; 49; 50]; DoFileinfo [47; 49; 50]; DoFsinfo] /\
  session 60 [DoGet [47; 49; 50]; DoCd [46; 46]; DoGet [47; 57; 57]; DoAttr true [47; 49; 50]; DoFileinfo [47; 49; 50]; DoFsinfo] exh_dev = Ok
    [(mkReply [] [] (Err (EAttributeNotFound (Some 13312) 128)), []); (mkReply [] [] (Ok (Done tt)), []); (mkReply [] [] (Err (EInvalidFileRecordNumber 99)), []);
     (mkReply [LAttribute false 1 32 true 12 (Some 13368) 136 []; LAttribute true 1 128 false 13 (Some 14488) 700 []; LRun true 0 (Some 146944) 512; LRun true 1 (Some 146432) 512;
               LAttribute true 1 128 false 13 (Some 14488) 700 []; LRun true 0 (Some 146944) 512; LRun true 1 (Some 146432) 512] [] (Err (EInvalidFileRecordNumber 99)), []);
     (mkReply [LRecord 1024 (Some 13312) 512 1 false 12 1; LStream [] 700] [] (Err (EIo UnexpectedEof)), []);
     (mkReply [LGeometry 512 1024 (Some 1024)] [] (Err (EInvalidFileSignature (Some 4096) [0; 0; 0; 0])), [])].
Proof.
  assert (Hb : bytes_ok (d_img exh_dev)) by (apply bytes_okb_ok; vm_compute; reflexivity).
  assert (E1 : snd (ntfs_new exh_dev) = Ok exh_ntfs) by (vm_compute; reflexivity).
  assert (E2 : snd (ntfs_file exh_ntfs 12 exh_dev) = Ok exh_file) by (vm_compute; reflexivity).
  split; [exact Hb|]. split.
  { exists exh_dev, (fst (ntfs_new exh_dev)), exh_ntfs, None. split; [exact Hb|]. split; [|vm_compute; reflexivity]. rewrite <- E1. apply surjective_pairing. }
  split. { exists exh_dev, (fst (ntfs_file exh_ntfs 12 exh_dev)), 12. split; [exact Hb|]. split; [lia|]. rewrite <- E2. apply surjective_pairing. }
  split. { eexists. split; [vm_compute; reflexivity|]. vm_compute. reflexivity. }
  split; [|vm_compute; reflexivity]. repeat (apply Forall_cons; [cbn; eauto|]). apply Forall_nil.
Qed.
