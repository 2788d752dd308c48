(** * Specification for the output files of the example program. *)
From Verif Require Import Base SpecVolume.
From Verif Require Shell Host SpecFaults.

(** The files of the host: whether there is one of this name with these contents. *)
Definition has_file (h : Host.host) (name bs : list Z) : Prop := exists l1 l2, h = l1 ++ (name, bs) :: l2 /\ ~ In name (map fst l1).
Definition no_file (h : Host.host) (name : list Z) : Prop := ~ In name (map fst h).
(** The output file for FILE is FILE, for FILE:STREAM it is FILE_STREAM. *)
Definition saved_as (arg name : list Z) : Prop := exists file stream, splits arg file stream /\ (stream = [] /\ name = file \/ stream <> [] /\ name = file ++ [95] ++ stream).

(** One command, with its effect on the files of the host. *)
Inductive hosted_answers (img : list Z) (v : volume) (allowed : list Z -> bool) (p : path) (h : Host.host) : Shell.command -> Host.hosted_reply -> path -> Host.host -> Prop :=
| ha_exists arg name bs : saved_as arg name -> has_file h name bs -> hosted_answers img v allowed p h (Shell.DoGet arg) Host.CannotCreate p h
| ha_denied arg name : saved_as arg name -> allowed name = false -> hosted_answers img v allowed p h (Shell.DoGet arg) Host.CannotCreate p h
| ha_get arg name r p' : saved_as arg name -> no_file h name -> allowed name = true -> answers img v p (Shell.DoGet arg) r p' ->
    hosted_answers img v allowed p h (Shell.DoGet arg) (Host.Replied r) p' ((name, Shell.re_data r) :: h)
| ha_other c r p' : (forall arg, c <> Shell.DoGet arg) -> answers img v p c r p' -> hosted_answers img v allowed p h c (Host.Replied r) p' h.
(** A whole history: replies, prompts, and the files at the end. *)
Inductive hosted_history (img : list Z) (v : volume) (allowed : list Z -> bool) : path -> Host.host -> list Shell.command -> list (Host.hosted_reply * list Z) -> Host.host -> Prop :=
| hoh_nil p h : hosted_history img v allowed p h [] [] h
| hoh_cons p h c r p' h' cs l h2 : hosted_answers img v allowed p h c r p' h' -> hosted_history img v allowed p' h' cs l h2 ->
    hosted_history img v allowed p h (c :: cs) ((r, prompt p') :: l) h2.
(** The contents are the bytes, or a beginning of the bytes, that some [get] among the commands is due to save under this name. *)
Definition saves_part (img : list Z) (v : volume) (cmds : list Shell.command) (name bs : list Z) : Prop :=
  exists arg p due p', In (Shell.DoGet arg) cmds /\ saved_as arg name /\ answers img v p (Shell.DoGet arg) due p' /\ SpecFaults.begins bs (Shell.re_data due).
