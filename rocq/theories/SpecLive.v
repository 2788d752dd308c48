(** * Specification for volumes that change while a value is open, independent of the model of the library. *)
From Verif Require Import Base Dev Types File Spec SpecAttrList.

(** A history in which every operation meets its own device: between two operations somebody may have written to the volume, and the cursor of
    the device, the sizes of its reads and so on may be anything.  What an operation does to the device is forgotten. *)
Fixpoint live_run {S} (read : S -> Z -> dev -> dev * (S * res (list Z))) (seek : S -> seekfrom -> dev -> dev * (S * res Z)) (s : S)
  (h : list (dev * op)) : list opres :=
  match h with
  | [] => []
  | (d, o) :: t => let '(_, s', r) := reader_step read seek s d o in r :: live_run read seek s' t
  end.

(** A cursor over contents that change: at each operation the contents are those that belong to the image of that moment. *)
Fixpoint live_cursor (content : list Z -> list Z) (size p : Z) (h : list (dev * op)) : list opres :=
  match h with
  | [] => []
  | (d, o) :: t => let '(p', r) := cursor_step (content (d_img d)) size p o in r :: live_cursor content size p' t
  end.

(** The parts of a value that is spread over several records: on the image [img] the MFT begins at [mp], and the entries at [offs] of the attribute list
    [bs] lead to records that hold the extents [parts].  Where the records are, and what else they hold, is left open. *)
Definition lists_parts (nt : ntfs) (mp : Z) (bs : list Z) (ty inst : Z) (e : list_end) (offs : list Z) (parts : list (list extent)) (img : list Z) : Prop :=
  bytes_ok img /\ exists mdata ml, mft_at img mp (file_record_size nt) mdata ml /\ valid_extents (cluster_size nt) img ml /\
    connected img nt ml bs ty inst e offs parts.
