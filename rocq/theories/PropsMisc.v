(** * C25, C31, C33, C34, C41, C42: references, name comparison, times, GUIDs, the sector reader. *)
From Verif Require Import Base Dev Types DataRuns Stream NonResident Resident Attribute Structured AttrList Time Guid Upcase SectorReader
  Spec SpecMisc BaseProofs MiscProofs SectorProofs.

(** The integer ranges that the model and the specification share. *)
Example machine_integers : U16_MAX = 2 ^ 16 - 1 /\ U32_MAX = 2 ^ 32 - 1 /\ U64_MAX = 2 ^ 64 - 1 /\ TWO64 = 2 ^ 64 /\ I64_MAX = 2 ^ 63 - 1 /\ I64_MIN = - 2 ^ 63.
Proof. repeat split; reflexivity. Qed.

(** C25. *)
Theorem C25_file_reference : forall r, bytes_ok r -> zlen r = 8 ->
  fr_number r = le_val (ztake 6 r) /\ fr_sequence r = le_val (zdrop 6 r) /\
  0 <= fr_number r < 2 ^ 48 /\ 0 <= fr_sequence r < 2 ^ 16 /\ fr_number r + 2 ^ 48 * fr_sequence r = le_val r.
Proof. exact fr_split. Qed.
Print Assumptions C25_file_reference.
Theorem C25_determines : forall r s, bytes_ok r -> bytes_ok s -> zlen r = 8 -> zlen s = 8 ->
  fr_number r = fr_number s -> fr_sequence r = fr_sequence s -> r = s.
Proof. exact fr_determines. Qed.
Print Assumptions C25_determines.
Example C25_example : let r := [5; 0; 0; 1; 0; 128; 7; 255] in bytes_ok r /\ zlen r = 8 /\
  fr_number r = 5 + 2 ^ 24 + 128 * 2 ^ 40 /\ fr_sequence r = 7 + 255 * 256.
Proof. split; [apply bytes_okb_ok; vm_compute; reflexivity|]. repeat split. Qed.

(** C31. [t] is the loaded table. *)
Theorem C31_lexicographic : forall nt t a b, upcase_table nt = Some t -> zlen t = 65536 -> Forall unit_ok a -> Forall unit_ok b ->
  exists c, upcase_cmp nt a b = Ok c /\ (c = Eq <-> upper t a = upper t b) /\ (c = Lt <-> lex_lt (upper t a) (upper t b)) /\
    (c = Gt <-> lex_lt (upper t b) (upper t a)).
Proof. exact upcase_cmp_spec. Qed.
Print Assumptions C31_lexicographic.
Theorem C31_total_preorder : forall nt t a b c, upcase_table nt = Some t -> zlen t = 65536 ->
  Forall unit_ok a -> Forall unit_ok b -> Forall unit_ok c ->
  upcase_cmp nt a a = Ok Eq /\
  (exists x, upcase_cmp nt a b = Ok x /\ upcase_cmp nt b a = Ok (CompOpp x)) /\
  (upcase_cmp nt a b <> Ok Gt -> upcase_cmp nt b c <> Ok Gt -> upcase_cmp nt a c <> Ok Gt) /\
  (upcase_cmp nt a b = Ok Lt -> upcase_cmp nt b c <> Ok Gt -> upcase_cmp nt a c = Ok Lt) /\
  (upcase_cmp nt a b <> Ok Gt -> upcase_cmp nt b c = Ok Lt -> upcase_cmp nt a c = Ok Lt).
Proof. exact upcase_preorder. Qed.
Print Assumptions C31_total_preorder.
(** "aB" and "Ab" are equal, "b" is greater, for the table that maps a-z to A-Z. *)
Definition ex_table : list Z := map (fun i => let c := Z.of_nat i in if (97 <=? c) && (c <=? 122) then c - 32 else c) (seq 0 (Z.to_nat 65536)).
Definition ex_nt : ntfs := mkNtfs 4096 512 1048576 (Some 16384) 1024 0 (Some ex_table).
Example C31_example : upcase_table ex_nt = Some ex_table /\ zlen ex_table = 65536 /\ Forall unit_ok [97; 66] /\
  upcase_cmp ex_nt [97; 66] [65; 98] = Ok Eq /\ upcase_cmp ex_nt [97; 66] [98] = Ok Lt /\ upcase_cmp ex_nt [97; 66] [65] = Ok Gt.
Proof.
  split; [reflexivity|]. split; [unfold zlen, ex_table; rewrite map_length, seq_length; apply Z2Nat.id; discriminate|].
  split; [repeat constructor; discriminate|]. repeat split; vm_compute; reflexivity.
Qed.
(** A comparison before the table has been loaded panics, as documented. *)
Theorem C31_needs_table : forall nt a b, upcase_table nt = None -> upcase_cmp nt a b = Panic.
Proof. intros nt a b H. unfold upcase_cmp. now rewrite H. Qed.
Print Assumptions C31_needs_table.

(** C33. Every timestamp converts to the instant it denotes and back. *)
Theorem C33_round_trip : forall t, 0 <= t <= U64_MAX ->
  datetime_from_time t = Ok (instant_of t) /\ time_from_datetime (instant_of t) = Ok t.
Proof. intros t H. split; [now apply datetime_of_time|now apply time_of_datetime]. Qed.
Print Assumptions C33_round_trip.
(** Conversion of instants at or after 1601, and of those at least one interval before 1601.  Missing: the 99 ns before 1601. *)
Theorem C33_from_instant_partial : forall n,
  (YEAR_1601 <= n -> intervals_since_1601 n <= U64_MAX ->
     exists t, time_from_datetime n = Ok t /\ 0 <= t <= U64_MAX /\ Z.abs (n - instant_of t) < 100 /\ (0 <= n -> t = intervals_since_1601 n)) /\
  (YEAR_1601 <= n -> U64_MAX < intervals_since_1601 n -> time_from_datetime n = Err EInvalidTime) /\
  (n <= YEAR_1601 - 100 -> time_from_datetime n = Err EInvalidTime).
Proof.
  intros n. split; [intros H; apply (time_of_instant n H)|]. split; [intros H; apply (time_of_instant n H)|]. apply time_early.
Qed.
Print Assumptions C33_from_instant_partial.
Theorem C33_monotone : forall n m a b, n <= m -> time_from_datetime n = Ok a -> time_from_datetime m = Ok b -> a <= b.
Proof. exact time_monotone. Qed.
Print Assumptions C33_monotone.
(** 2013-01-05T18:15:00Z (the value of the crate's own test). *)
Example C33_example : datetime_from_time 130018833000000000 = Ok 1357409700000000000 /\ time_from_datetime 1357409700000000000 = Ok 130018833000000000 /\
  time_from_datetime (-1) = Ok 116444736000000000 /\ intervals_since_1601 (-1) = 116444735999999999.
Proof. repeat split; vm_compute; reflexivity. Qed.
(** "Times before 1601 are rejected" is false: one nanosecond before 1601 becomes timestamp 0. *)
Theorem C33_before_1601_refuted : exists n t, n < YEAR_1601 /\ time_from_datetime n = Ok t.
Proof. exists (YEAR_1601 - 1), 0. split; [unfold YEAR_1601; lia|vm_compute; reflexivity]. Qed.
Print Assumptions C33_before_1601_refuted.
(** And "truncation" is towards 1970: before 1970 the result may lie after the converted instant. *)
Theorem C33_truncation_refuted : exists n t, YEAR_1601 <= n /\ time_from_datetime n = Ok t /\ n < instant_of t.
Proof. exists (-1), 116444736000000000. split; [unfold YEAR_1601; lia|]. split; vm_compute; reflexivity. Qed.
Print Assumptions C33_truncation_refuted.

(** C34, for times whose interval count fits 64 bits.  Missing: later ones, which panic. *)
Theorem C34_system_time_partial : forall n, intervals_since_1601 n <= U64_MAX ->
  time_from_systemtime n = if n <? 0 then Err EInvalidTime else Ok (intervals_since_1601 n).
Proof. intros n H. rewrite systemtime_spec. replace (intervals_since_1601 n <=? U64_MAX) with true by lia. reflexivity. Qed.
Print Assumptions C34_system_time_partial.
Example C34_example : intervals_since_1601 1357409700000000000 <= U64_MAX /\ time_from_systemtime 1357409700000000000 = Ok 130018833000000000 /\
  time_from_systemtime (-5) = Err EInvalidTime.
Proof. split; [vm_compute; discriminate|]. split; vm_compute; reflexivity. Qed.
(** All later times panic; there is one that a [SystemTime] with a 64-bit seconds count can represent. *)
Theorem C34_overflow_refuted : exists n, 0 <= n / 1000000000 <= U64_MAX /\ time_from_systemtime n = Panic.
Proof. exists (2000000000000 * 1000000000). split; [vm_compute; split; discriminate|vm_compute; reflexivity]. Qed.
Print Assumptions C34_overflow_refuted.

(** C41. The text always has 36 characters and determines the GUID ... *)
Theorem C41_determines : forall a b c d a' b' c' d', guid_ok a b c d -> guid_ok a' b' c' d' ->
  guid_display (mkGuid a b c d) = guid_display (mkGuid a' b' c' d') -> a = a' /\ b = b' /\ c = c' /\ d = d'.
Proof. exact guid_display_inj. Qed.
Print Assumptions C41_determines.
Theorem C41_length : forall a b c d, guid_ok a b c d -> length (guid_display (mkGuid a b c d)) = 36%nat.
Proof. exact guid_display_length. Qed.
Print Assumptions C41_length.
(** ... and is canonical if no component has leading zeros.  Missing: the other GUIDs, for which it is false. *)
Theorem C41_canonical_partial : forall a b c d, guid_ok a b c d -> guid_full a b c d ->
  guid_display (mkGuid a b c d) = canonical_guid a b c d.
Proof. exact guid_display_canonical. Qed.
Print Assumptions C41_canonical_partial.
Example C41_example : let d := [132; 116; 217; 201; 16; 91; 26; 187] in guid_ok 2254857830 41117 52978 d /\ guid_full 2254857830 41117 52978 d.
Proof.
  cbv zeta. split.
  - split; [lia|]. split; [lia|]. split; [lia|]. split; [reflexivity|]. apply bytes_okb_ok; vm_compute; reflexivity.
  - split; [lia|]. split; [lia|]. split; [lia|]. repeat constructor; lia.
Qed.
(** Leading zeros are printed as spaces. *)
Theorem C41_padding_refuted : exists a b c d, guid_ok a b c d /\ guid_display (mkGuid a b c d) <> canonical_guid a b c d /\
  In 32 (guid_display (mkGuid a b c d)).
Proof.
  exists 1, 41117, 52978, [132; 116; 217; 201; 16; 91; 26; 187]. split; [|split].
  - split; [lia|]. split; [lia|]. split; [lia|]. split; [reflexivity|]. apply bytes_okb_ok; vm_compute; reflexivity.
  - vm_compute. discriminate.
  - vm_compute. auto.
Qed.
Print Assumptions C41_padding_refuted.

(** C42, for histories in which every read directly follows a seek and one whole sector after the requested bytes exists.
    Missing: consecutive reads and reads of the last sector, for which the claim is false. *)
Theorem C42_seek_and_read_partial : forall sector s img d l, sr_new sector = Ok s -> zlen img <= U64_MAX -> faultless d -> d_img d = img ->
  pairs_ok sector (zlen img) 0 l ->
  reader_run sr_read sr_seek s d (flat_map seek_then_read l) = cursor_run img (zlen img) 0 (flat_map seek_then_read l).
Proof.
  intros sector s img d l Hn Hl Hf Hi Hp. unfold sr_new in Hn. destruct (is_pow2 sector) eqn:E; [|discriminate]. injection Hn as <-.
  apply sr_history; auto using is_pow2_pos. unfold U64_MAX; lia.
Qed.
Print Assumptions C42_seek_and_read_partial.
(** Every position the device is left at by such a pair is a multiple of the sector size. *)
Theorem C42_aligned : forall sector p sf n d, 0 < sector -> faultless d -> zlen (d_img d) <= U64_MAX -> 0 <= p <= U64_MAX ->
  pairs_ok sector (zlen (d_img d)) p [(sf, n)] ->
  exists d1 s1 d2 s2 q bs, sr_seek (mkSR sector p) sf d = (d1, (s1, Ok q)) /\ d_pos d1 mod sector = 0 /\
    sr_read s1 n d1 = (d2, (s2, Ok bs)) /\ d_pos d2 mod sector = 0.
Proof. exact sr_pair_aligned. Qed.
Print Assumptions C42_aligned.
Example C42_example : sr_new 4 = Ok (mkSR 4 0) /\ pairs_ok 4 20 0 [(SStart 5, 6); (SCurrent (-3), 1); (SStart 0, 15)] /\
  reader_run sr_read sr_seek (mkSR 4 0) (mkDev (map Z.of_nat (seq 0 20)) 0 [RShort 1; RShort 0] []) (flat_map seek_then_read [(SStart 5, 6); (SCurrent (-3), 1)]) =
    [RPos (Ok 5); RBytes (Ok [5; 6; 7; 8; 9; 10]); RPos (Ok 8); RBytes (Ok [8])].
Proof.
  split; [vm_compute; reflexivity|]. split; [|vm_compute; reflexivity]. cbn. unfold U64_MAX, I64_MAX, I64_MIN. repeat split; try discriminate; try lia; vm_compute; discriminate.
Qed.
(** Two consecutive reads do not return consecutive bytes. *)
Theorem C42_sequential_refuted : exists s img d l, sr_new 4 = Ok s /\ faultless d /\ d_img d = img /\ Forall op_ok l /\
  reader_run sr_read sr_seek s d l <> cursor_run img (zlen img) 0 l.
Proof.
  exists (mkSR 4 0), (map Z.of_nat (seq 0 20)), (mkDev (map Z.of_nat (seq 0 20)) 0 [] []), [ORead 2; ORead 2].
  split; [vm_compute; reflexivity|]. split; [split; constructor|]. split; [reflexivity|]. split; [repeat constructor; vm_compute; discriminate|].
  vm_compute. discriminate.
Qed.
Print Assumptions C42_sequential_refuted.
(** The bytes of the last sector cannot be read up to its end. *)
Theorem C42_last_sector_refuted : exists s img d, sr_new 4 = Ok s /\ faultless d /\ d_img d = img /\ zlen img mod 4 = 0 /\
  reader_run sr_read sr_seek s d [OSeek (SStart (zlen img - 4)); ORead 4] = [RPos (Ok (zlen img - 4)); RBytes (Err (EIo UnexpectedEof))].
Proof.
  exists (mkSR 4 0), (map Z.of_nat (seq 0 20)), (mkDev (map Z.of_nat (seq 0 20)) 0 [] []).
  split; [vm_compute; reflexivity|]. split; [split; constructor|]. split; [reflexivity|]. split; vm_compute; reflexivity.
Qed.
Print Assumptions C42_last_sector_refuted.
