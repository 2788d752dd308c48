(** * C43: reading hostile non-resident values. *)
From Verif Require Import Base Dev Types DataRuns Stream NonResident Spec BaseProofs TerminationProofs.

(** C43. [data] is any byte string taken as mapping pairs, [size] any value size, [d] any device with any schedule of short
    reads and faults.  The model's loops are bounded by a number computed from the lengths of the mapping pairs and of the
    device schedule; [OutOfFuel] is what they return if they have not ended by then. *)
Theorem C43_terminates : forall cs data p size, 1 <= cs -> bytes_ok data -> 0 <= size <= U64_MAX ->
  nr_new cs data p size <> OutOfFuel /\
  forall v ops d, nr_new cs data p size = Ok v -> Forall op_ok ops ->
    Forall (fun r => r <> RBytes OutOfFuel /\ r <> RPos OutOfFuel) (reader_run nr_read nr_seek v d ops) /\
    forall d1 v1 n, reader_exec nr_read nr_seek v d ops = (d1, v1) -> snd (snd (nr_read_exact v1 n d1)) <> OutOfFuel.
Proof. exact nr_total. Qed.
Print Assumptions C43_terminates.

(** If no data run that the mapping pairs yield reaches beyond byte 2^64, nothing panics either: every operation returns a
    result or an error. *)
Theorem C43_no_panic : forall cs data p size, 1 <= cs -> bytes_ok data -> 0 <= size <= U64_MAX ->
  (forall n r, In (Some (Ok r)) (iterate (druns_next cs data p) n druns_start) ->
     forall q, r_pos r = Some q -> q + r_alloc r <= 2 ^ 64) ->
  returns (nr_new cs data p size) /\
  forall v ops d, nr_new cs data p size = Ok v -> Forall op_ok ops ->
    Forall (fun r => match r with RBytes x => returns x | RPos x => returns x end) (reader_run nr_read nr_seek v d ops) /\
    forall d1 v1 n, reader_exec nr_read nr_seek v d ops = (d1, v1) -> returns (snd (snd (nr_read_exact v1 n d1))).
Proof. exact nr_no_panic. Qed.
Print Assumptions C43_no_panic.

(** A run far outside the image, a hole, then a header byte whose fields are missing, read through a faulty device. *)
Example C43_example :
  let data := [33; 2; 255; 127; 1; 9; 68; 1] in
  let d := mkDev [1; 2; 3] 0 [RShort 0; RErr Interrupted] [None; None; None; Some OtherIo] in
  bytes_ok data /\
  (forall n r, In (Some (Ok r)) (iterate (druns_next 512 data None) n druns_start) -> forall q, r_pos r = Some q -> q + r_alloc r <= 2 ^ 64) /\
  match nr_new 512 data None 100000 with
  | Ok v => reader_run nr_read nr_seek v d [ORead 10; OSeek (SStart 1500); ORead 4; OSeek (SEnd 0); OSeek (SStart 1); ORead 2] =
      [RBytes (Ok [0; 0; 0; 0; 0; 0; 0; 0; 0; 0]); RPos (Ok 1500); RBytes (Ok [0; 0; 0; 0]); RPos (Err (EIo UnexpectedEof));
       RPos (Ok 1); RBytes (Err (EIo Interrupted))]
  | _ => False end.
Proof.
  split; [apply bytes_okb_ok; vm_compute; reflexivity|]. split; [|vm_compute; reflexivity].
  set (data := [33; 2; 255; 127; 1; 9; 68; 1]).
  assert (E0 : druns_next 512 data None druns_start = (mkDruns 4 32767, Some (Ok (mkRun (Some 16776704) 1024 0)))) by (vm_compute; reflexivity).
  assert (E1 : druns_next 512 data None (mkDruns 4 32767) = (mkDruns 6 32767, Some (Ok (mkRun None 4608 0)))) by (vm_compute; reflexivity).
  assert (E2 : druns_next 512 data None (mkDruns 6 32767) = (mkDruns 6 32767, Some (Err (EIo UnexpectedEof)))) by (vm_compute; reflexivity).
  clearbody data. intros n r Hin q Hq.
  assert (Hn : forall m, ~ In (Some (Ok r)) (iterate (druns_next 512 data None) m (mkDruns 6 32767))).
  { induction m as [|m IH]; [intros []|]. cbn [iterate]. rewrite E2. intros [H|H]; [discriminate|auto]. }
  destruct n as [|n]; [destruct Hin|]. cbn [iterate] in Hin. rewrite E0 in Hin. destruct Hin as [[= <-]|Hin]; [injection Hq as <-; cbn [r_alloc]; lia|].
  destruct n as [|n]; [destruct Hin|]. cbn [iterate] in Hin. rewrite E1 in Hin. destruct Hin as [[= <-]|Hin]; [discriminate|].
  destruct (Hn n Hin).
Qed.

(** Without that guard the addition of run position and offset overflows: the second sector of this run starts at 2^64. *)
Theorem C43_panic_refuted : exists cs data p size v d,
  1 <= cs /\ bytes_ok data /\ 0 <= size <= U64_MAX /\ nr_new cs data p size = Ok v /\
  reader_run nr_read nr_seek v d [OSeek (SStart 512); ORead 1] = [RPos (Ok 512); RBytes Panic].
Proof.
  exists 512, [113; 2; 255; 255; 255; 255; 255; 255; 127; 0], None, 1024.
  assert (E : exists v, nr_new 512 [113; 2; 255; 255; 255; 255; 255; 255; 127; 0] None 1024 = Ok v).
  { vm_compute. eexists. reflexivity. }
  destruct E as (v & E). exists v, (mkDev [] 0 [] []).
  split; [lia|]. split; [apply bytes_okb_ok; vm_compute; reflexivity|]. split; [unfold U64_MAX; lia|]. split; [exact E|].
  vm_compute in E. injection E as <-. vm_compute. reflexivity.
Qed.
Print Assumptions C43_panic_refuted.
