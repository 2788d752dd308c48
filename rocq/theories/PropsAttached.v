(** * Property C66: values attached to a device, seen by programs that use the traits [Read] and [Seek] of the standard library. *)
From Verif Require Import Base Dev Types Record DataRuns Stream NonResident Resident BootSector Attribute File Structured AttrList Upcase Attached
  Spec SpecValues SpecAttrList SpecTotal SpecFaults SpecAttached BaseProofs AttributeProofs FileProofs StructuredProofs AttachedProofs AttachedLenProofs NonResidentProofs StreamExamples FileExamples StaleProofs.
From Coq Require Import Lia.

(** The values of attributes act as a cursor over their content: attributes of one record, attributes that are continued in others (C37) ... *)
Theorem C66_attribute : forall nt img f o bs d, bytes_ok (f_data f) -> 0 <= o -> attr_fits (f_data f) o -> attr_content (cluster_size nt) img (f_data f) o bs ->
  faultless d -> d_img d = img ->
  exists v, attr_value nt (mkAttr f o None) d = (d, Ok v) /\ av_len v = zlen bs /\ forall k, acts_as (av_read k) (av_seek k) v d bs (zlen bs) 0.
Proof. exact attribute_acts. Qed.
Print Assumptions C66_attribute.
Theorem C66_listed_attribute : forall nt a img l size d, value_reads_as nt a img l size -> faultless d -> d_img d = img ->
  exists d1 v, attr_value nt a d = (d1, Ok v) /\ av_len v = size /\
    forall k, (length (d_reads d1) + 2 * length l + 2 <= k)%nat -> acts_as (av_read k) (av_seek k) v d1 (file_content (cluster_size nt) img l size) size 0.
Proof. exact list_acts. Qed.
Print Assumptions C66_listed_attribute.
(** ... and go on to do so after any reads and seeks. [V] is the type of the values: any ([av_read], [av_seek]) or non-resident ones ([nr_read], [nr_seek]). *)
Theorem C66_history : forall V read seek c size (v : V) d p ops d1 v1, 0 <= p -> acts_as read seek v d c size p -> Forall op_ok ops -> reader_exec read seek v d ops = (d1, v1) ->
  let q := fold_left (fun q o => fst (cursor_step c size q o)) ops p in acts_as read seek v1 d1 c size q /\ 0 <= q.
Proof. exact (fun V => @acts_history_pos V). Qed.
Print Assumptions C66_history.

(** Length and emptiness of the attached value stay those of the content, whatever is done with it, on any device [d'] (also one that fails) ... *)
Theorem C66_length : forall nt img f o bs d, bytes_ok (f_data f) -> 0 <= o -> attr_fits (f_data f) o -> attr_content (cluster_size nt) img (f_data f) o bs ->
  faultless d -> d_img d = img ->
  exists v, attr_value nt (mkAttr f o None) d = (d, Ok v) /\
    forall k d' ops, let a := after (reader_of (att_read (av_read k)) (att_seek (av_seek k))) ops (attach v d') in
    att_len a = zlen bs /\ (att_is_empty a = true <-> bs = []).
Proof. exact attached_length. Qed.
Print Assumptions C66_length.
(** ... also for attributes that are continued in other records; and after a seek that moved, the data position is where the byte is stored. *)
Theorem C66_listed_length : forall nt a img l size d, value_reads_as nt a img l size -> faultless d -> d_img d = img ->
  exists d1 v, attr_value nt a d = (d1, Ok v) /\
    (forall k d' ops, let b := after (reader_of (att_read (av_read k)) (att_seek (av_seek k))) ops (attach v d') in
       att_len b = size /\ (att_is_empty b = true <-> size = 0)) /\
    forall k ops sf b2 q, (length (d_reads d1) + 2 * length l + 2 <= k)%nat -> Forall op_ok ops -> seek_arg_ok sf ->
      let b := after (reader_of (att_read (av_read k)) (att_seek (av_seek k))) ops (attach v d1) in
      let p := av_stream_position (snd (detach b)) in
      att_seek (av_seek k) b sf = (b2, IOk q) -> q <> p -> p < size \/ q < p -> att_data_position b2 = disk_position (cluster_size nt) l q.
Proof. exact attached_listed. Qed.
Print Assumptions C66_listed_length.
(** A value of 16 bytes; its length after a seek and a read, the latter on a device that fails. *)
Example C66_length_example : bytes_ok (f_data init_file) /\ attr_fits (f_data init_file) 56 /\
  attr_content (cluster_size ex_ntfs) init_img (f_data init_file) 56 init_stored /\ faultless (mkDev init_img 0 [] []) /\
  exists v, attr_value ex_ntfs (mkAttr init_file 56 None) (mkDev init_img 0 [] []) = (mkDev init_img 0 [] [], Ok v) /\
  let a := after (reader_of (att_read (av_read 9)) (att_seek (av_seek 9))) [OSeek (SStart 4); ORead 3] (attach v (mkDev init_img 0 [RErr OtherIo] [])) in
  att_len a = 16 /\ att_is_empty a = false /\ att_data_position a = Some 516.
Proof.
  split; [apply bytes_okb_ok; vm_compute; reflexivity|]. split; [apply fits_dec; vm_compute; reflexivity|]. split; [exact init_content|].
  split; [split; constructor|]. eexists. split; [vm_compute; reflexivity|]. cbv zeta. repeat split; vm_compute; reflexivity.
Qed.

(** A program that calls [read] and [seek] of the attached value cannot tell it from bytes in memory, whatever it makes its calls depend on. *)
Theorem C66_programs : forall V read seek c size (v : V) d p prog n, (forall seen, op_ok (prog seen)) -> acts_as read seek v d c size p ->
  conversation (reader_of (att_read read) (att_seek seek)) prog n [] (attach v d) = conversation (memory_step c size) prog n [] p.
Proof. intros. apply conversation_acts; auto. Qed.
Print Assumptions C66_programs.
(** [read_to_end] appends exactly the bytes from the position to the end, whatever amounts it asks for. *)
Theorem C66_read_to_end : forall V read seek c size (v : V) d p sizes fuel buf, 0 <= p -> acts_as read seek v d c size p -> (forall i, 1 <= sizes i <= U64_MAX) ->
  (length (zdrop p c) < fuel)%nat ->
  exists a, read_to_end (att_read read) sizes fuel 0 (attach v d) buf = (a, (buf ++ zdrop p c, IOk tt)) /\
    let '(d1, v1) := detach a in acts_as read seek v1 d1 c size (p + zlen (zdrop p c)).
Proof.
  intros V read seek c size v d p sizes fuel buf Hp H Hs Hf. destruct (read_to_end_acts read seek c size sizes Hs fuel 0 v d p buf Hp H Hf) as (d1 & v1 & E & H1).
  exists (mkAtt d1 v1). split; [exact E|exact H1].
Qed.
Print Assumptions C66_read_to_end.
(** [read_exact] of the standard library fills the buffer, or reports the end of the file. *)
Theorem C66_read_exact : forall V read seek c size (v : V) d p n fuel, 0 <= p -> 0 <= n <= U64_MAX -> acts_as read seek v d c size p -> (Z.to_nat n <= fuel)%nat ->
  exists a r, std_read_exact (att_read read) fuel (attach v d) n [] = (a, r) /\
    (n <= zlen (zdrop p c) -> r = IOk (ztake n (zdrop p c)) /\ let '(d1, v1) := detach a in acts_as read seek v1 d1 c size (p + n)) /\
    (zlen (zdrop p c) < n -> r = IErr (IoKind UnexpectedEof)).
Proof.
  intros V read seek c size v d p n fuel Hp Hn H Hf. destruct (std_read_exact_acts read seek c size fuel n v d p [] Hp ltac:(lia) H Hf) as (d1 & v1 & r & E & A & B).
  exists (mkAtt d1 v1), r. split; [exact E|]. split; [|exact B]. intros Hle. destruct (A Hle) as (A1 & A2). split; [exact A1|]. cbn. now replace (Z.max 0 n) with n in A2 by lia.
Qed.
Print Assumptions C66_read_exact.
(** On a device with faults (which would let the value act as a cursor without them): [read_to_end] appends all, or a beginning and returns the error of the device. *)
Theorem C66_read_to_end_faults : forall k c size v d p sizes fuel buf, ~ reports d Interrupted -> 0 <= p -> acts_as (av_read k) (av_seek k) v (without_faults d) c size p ->
  (forall i, 1 <= sizes i <= U64_MAX) -> (length (zdrop p c) < fuel)%nat ->
  exists a bs r, read_to_end (att_read (av_read k)) sizes fuel 0 (attach v d) buf = (a, (buf ++ bs, r)) /\
    (r = IOk tt /\ bs = zdrop p c \/ (exists e, reports d e /\ r = IErr (IoKind e)) /\ begins bs (zdrop p c)).
Proof. intros. apply read_to_end_faults with size; auto. Qed.
Print Assumptions C66_read_to_end_faults.
(** Streams of any volume: [read_to_end] ends. [G] bounds the number of its reads. *)
Theorem C66_ends : forall nt f d stream sizes, opened nt -> file_read_from nt f -> bytes_ok (d_img d) -> (forall i, 1 <= sizes i) ->
  settles (fun k => file_data k nt f stream d) (fun y => snd y <> OutOfFuel /\ forall i a, snd y = Ok (Some i) -> item_to_attribute i = Ok a ->
    forall d2 d3 v, bytes_ok (d_img d2) -> attr_value nt a d2 = (d3, Ok v) ->
    exists G, forall g, (G <= g)%nat -> settles (fun k => read_to_end (att_read (av_read k)) sizes g 0 (attach v d3) []) (fun y => snd (snd y) <> IOutOfFuel)).
Proof. exact stream_to_end. Qed.
Print Assumptions C66_ends.
(** Errors: those of the device come out as they are, no other is taken for an interruption (after which the standard library would try again),
    and none are mixed up. *)
Theorem C66_errors : forall e, (io_kind (io_of_err e) = Interrupted <-> e = EIo Interrupted) /\ (forall e', io_of_err e = io_of_err e' -> e = e') /\
  (forall k, io_of_err e = IoKind k <-> e = EIo k).
Proof. exact error_kinds. Qed.
Print Assumptions C66_errors.

(** A value of 1400 bytes in three extents, read by a program that starts 20 bytes before the end, then reads a few bytes and goes back by the first of them, and so on (its answers, the last one first). *)
Definition ex_program : program := fun seen =>
  match seen with
  | [] => OSeek (SEnd (-20))
  | ABytes (IOk (x :: _)) :: _ => OSeek (SCurrent (- (x mod 256)))
  | APos (IOk p) :: _ => ORead (p mod 7 + 1)
  | _ => OSeek (SStart 100)
  end.
Example C66_example : (forall seen, op_ok (ex_program seen)) /\ exists v, nr_new 512 ex_enc None 1400 = Ok v /\
  acts_as nr_read nr_seek v ex_dev (file_content 512 ex_img ex_extents 1400) 1400 0 /\
  conversation (reader_of (att_read nr_read) (att_seek nr_seek)) ex_program 4 [] (attach v ex_dev) =
    [ABytes (IOk [2; 3]); APos (IOk 1247); ABytes (IOk [135; 136]); APos (IOk 1380)] /\
  snd (read_to_end (att_read nr_read) (fun i => Z.of_nat i + 600) 9 0 (attach v ex_dev) [7]) =
    (7 :: slice ex_img 512 1024 ++ zrepeat 0 512 ++ slice ex_img 1536 1912, IOk tt).
Proof.
  split.
  - intros [|[[[|x t]|e| |]|[p|e| |]] seen]; cbn [ex_program op_ok seek_arg_ok]; unfold I64_MIN, I64_MAX, U64_MAX; Z.to_euclidean_division_equations; lia.
  - assert (H : forall ops, Forall op_ok ops -> exists v, nr_new 512 ex_enc None 1400 = Ok v /\ nr_stream_position v = 0 /\
      reader_run nr_read nr_seek v ex_dev ops = cursor_run (file_content 512 ex_img ex_extents 1400) 1400 0 ops).
    { intros ops Ho. apply (nr_history_cursor 512 ex_img ex_extents ex_enc None 1400 ex_valid ex_encodes);
        [unfold U64_MAX; lia|split; repeat constructor|reflexivity|exact Ho]. }
    destruct (H [] (Forall_nil _)) as (v & Ev & _). exists v. split; [exact Ev|]. split.
    + intros ops Ho. destruct (H ops Ho) as (v' & Ev' & _ & H'). congruence.
    + clear H. vm_compute in Ev. injection Ev as <-. split; vm_compute; reflexivity.
Qed.
