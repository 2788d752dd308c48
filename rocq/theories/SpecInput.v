(** * Specification of the input lines of the example program, independent of the model of the code. *)
From Coq Require Import String Ascii.
From Verif Require Import Base Types Spec.
From Verif Require Shell.

(** The code units of a text of ASCII characters. *)
Definition text (s : string) : list Z := map (fun c => Z.of_N (N_of_ascii c)) (list_ascii_of_string s).

(** The white space of Unicode: the controls 9 to 13, the spaces, and the separators of lines and paragraphs. *)
Definition white (c : Z) : Prop :=
  9 <= c <= 13 \/ c = 32 \/ c = 133 \/ c = 160 \/ c = 5760 \/ 8192 <= c <= 8202 \/ c = 8232 \/ c = 8233 \/ c = 8239 \/ c = 8287 \/ c = 12288.
(** [t] is empty or begins (ends) with something else than white space. *)
Definition begins_black (t : list Z) : Prop := forall c u, t = c :: u -> ~ white c.
Definition ends_black (t : list Z) : Prop := forall c u, t = u ++ [c] -> ~ white c.

(** The line consists of the word [word], which contains no space, and the argument [arg], which is preceded by a space; further white space before
    and behind the word and behind the argument does not count. *)
Definition line_is (line word arg : list Z) : Prop :=
  exists before between behind, line = before ++ word ++ between ++ arg ++ behind /\ Forall white before /\ Forall white between /\ Forall white behind /\
    ~ In 32 word /\ begins_black word /\ begins_black arg /\ ends_black (word ++ between ++ arg) /\
    (between = [] /\ arg = [] \/ exists w, between = 32 :: w /\ word <> [] /\ arg <> []).

(** The commands. *)
Definition words : list (list Z) :=
  map text ["attr"; "attr_runs"; "cd"; "dir"; "exit"; "quit"; "fileinfo"; "fsinfo"; "get"; "help"]%string.
(** What a line asks for; [None]: the end of the program. *)
Inductive means (line : list Z) : option Shell.command -> Prop :=
| me_attr arg : line_is line (text "attr") arg -> means line (Some (Shell.DoAttr false arg))
| me_attr_runs arg : line_is line (text "attr_runs") arg -> means line (Some (Shell.DoAttr true arg))
| me_cd arg : line_is line (text "cd") arg -> means line (Some (Shell.DoCd arg))
| me_dir arg : line_is line (text "dir") arg -> means line (Some Shell.DoDir)
| me_exit arg : line_is line (text "exit") arg -> means line None
| me_quit arg : line_is line (text "quit") arg -> means line None
| me_fileinfo arg : line_is line (text "fileinfo") arg -> means line (Some (Shell.DoFileinfo arg))
| me_fsinfo arg : line_is line (text "fsinfo") arg -> means line (Some Shell.DoFsinfo)
| me_get arg : line_is line (text "get") arg -> means line (Some (Shell.DoGet arg))
| me_help arg : line_is line (text "help") arg -> means line (Some (Shell.DoHelp arg))
| me_nothing : Forall white line -> means line (Some Shell.DoNothing)
| me_unknown word arg : line_is line word arg -> word <> [] -> ~ In word words -> means line (Some (Shell.DoUnknown word)).

(** The commands that are carried out for the lines of the input, each with its line feed: up to "exit" or "quit", or an empty line (the end of
    the input). *)
Inductive asks : list (list Z) -> list Shell.command -> Prop :=
| as_none : asks [] []
| as_end lines : asks ([] :: lines) []
| as_exit line lines : line <> [] -> means line None -> asks (line :: lines) []
| as_command line lines c cs : line <> [] -> means line (Some c) -> asks lines cs -> asks (line :: lines) (c :: cs).
