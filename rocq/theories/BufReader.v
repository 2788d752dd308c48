(** * The reader of the example program: examples/ntfs-shell/main.rs 45-47, a [BufReader] of the standard library around the sector reader.

    [BufReader] is not part of /repo; its documented behaviour is modelled: a read with an empty buffer fills the buffer with one read of the inner
    reader, or goes directly to the inner reader if it asks for at least as much as the buffer holds; a seek always goes to the inner reader and
    discards the buffer. *)
From Verif Require Import Base Dev SectorReader.

(** examples/ntfs-shell/main.rs 46-47: the bytes of the buffer that have not been read yet, and the inner reader. *)
Record breader := mkBuf { bf_rest : list Z; bf_inner : sreader }.

(** examples/ntfs-shell/main.rs 46: the sector size that the program hands over. *)
Definition SHELL_SECTOR : Z := 4096.
(** examples/ntfs-shell/main.rs 47: the capacity that [BufReader::new] of the standard library chooses. *)
Definition SHELL_BUFFER : Z := 8192.
(** examples/ntfs-shell/main.rs 46-47: the reader at the start of the program. *)
Definition buf_new (sector : Z) : res breader := let? s := sr_new sector in Ok (mkBuf [] s).

(** examples/ntfs-shell/main.rs 47: [BufReader::read] with a buffer of [cap] bytes, for [n] bytes. *)
Definition buf_read (cap : Z) (b : breader) (n : Z) (d : dev) : dev * (breader * res (list Z)) :=
  match bf_rest b with
  | [] =>
      if cap <=? n then let '(d1, (s1, r)) := sr_read (bf_inner b) n d in (d1, (mkBuf [] s1, r))
      else
        match sr_read (bf_inner b) cap d with
        | (d1, (s1, Ok bs)) => (d1, (mkBuf (zdrop n bs) s1, Ok (ztake n bs)))
        | (d1, (s1, r)) => (d1, (mkBuf [] s1, r))
        end
  | rest => (d, (mkBuf (zdrop n rest) (bf_inner b), Ok (ztake n rest)))
  end.

(** examples/ntfs-shell/main.rs 47: [BufReader::seek] with [SeekFrom::Start], the only one that the library uses. *)
Definition buf_seek (b : breader) (p : Z) (d : dev) : dev * (breader * res Z) :=
  match sr_seek (bf_inner b) (SStart p) d with
  | (d1, (s1, Ok q)) => (d1, (mkBuf [] s1, Ok q))
  | (d1, (s1, r)) => (d1, (mkBuf (bf_rest b) s1, r))
  end.

(** examples/ntfs-shell/main.rs 47: [BufReader::stream_position], by which binrw asks for the position (src/ntfs.rs 47): [stream_position] of the sector reader is
    [seek] with [SeekFrom::Current(0)], what is left in the buffer is subtracted. *)
Definition buf_tell (b : breader) (d : dev) : dev * (breader * res Z) :=
  match sr_seek (bf_inner b) (SCurrent 0) d with
  | (d1, (s1, Ok q)) => (d1, (mkBuf (bf_rest b) s1, if q <? zlen (bf_rest b) then Panic else Ok (q - zlen (bf_rest b))))
  | (d1, (s1, r)) => (d1, (mkBuf (bf_rest b) s1, r))
  end.
(** examples/ntfs-shell/main.rs 47: [BufReader::seek] with [SeekFrom::Current(0)]. The inner reader is moved back by what is left in the buffer. *)
Definition buf_here (b : breader) (d : dev) : dev * (breader * res Z) :=
  match sr_seek (bf_inner b) (SCurrent (- zlen (bf_rest b))) d with
  | (d1, (s1, Ok q)) => (d1, (mkBuf [] s1, Ok q))
  | (d1, (s1, r)) => (d1, (mkBuf (bf_rest b) s1, r))
  end.

(** examples/ntfs-shell/main.rs 47: [Read::read_exact] of the standard library. [Interrupted] is not among the errors of the sector reader's reads, so every turn
    of the loop reads something or is the last one. *)
Fixpoint buf_read_exact_loop (cap : Z) (fuel : nat) (b : breader) (n : Z) (acc : list Z) (d : dev) : dev * (breader * res (list Z)) :=
  if n <=? 0 then (d, (b, Ok acc)) else
  match fuel with
  | O => (d, (b, OutOfFuel))
  | S f =>
      match buf_read cap b n d with
      | (d1, (b1, Ok [])) => (d1, (b1, Err (EIo UnexpectedEof)))
      | (d1, (b1, Ok bs)) => buf_read_exact_loop cap f b1 (n - zlen bs) (acc ++ bs) d1
      | (d1, (b1, Err (EIo Interrupted))) => buf_read_exact_loop cap f b1 n acc d1
      | (d1, (b1, r)) => (d1, (b1, r))
      end
  end.
(** examples/ntfs-shell/main.rs 47 [read_exact], see [buf_read_exact_loop]. *)
Definition buf_read_exact (cap : Z) (b : breader) (n : Z) (d : dev) : dev * (breader * res (list Z)) :=
  buf_read_exact_loop cap (Z.to_nat n + 2) b n [] d.
