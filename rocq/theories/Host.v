(** * The example program: output files of [get], examples/ntfs-shell/main.rs 498-509 and 538.

    Simplifications: file names are compared unit by unit, whatever the host does; [write_all] does not fail. *)
From Verif Require Import Base Dev Types Volume Shell.

(** No code: the files of the host, by the name that is given to [open], with their contents. *)
Definition host := list (list Z * list Z).
(** No code: the contents of a file. *)
Fixpoint host_file (h : host) (name : list Z) : option (list Z) :=
  match h with
  | [] => None
  | (n, bs) :: t => if list_eqb n name then Some bs else host_file t name
  end.
(** examples/ntfs-shell/main.rs 498-504: the name of the output file ("_" is 95). *)
Definition output_name (arg : list Z) : list Z :=
  let '(file, stream) := split_colon arg in
  match stream with [] => file | _ => file ++ [95] ++ stream end.
(** No code: a command fails because its output file cannot be created, or is carried out. *)
Inductive hosted_reply := CannotCreate | Replied (r : reply).
(** examples/ntfs-shell/main.rs 83-98, and 498-509 for [get]: a command with its effect on the files of the host. [allowed] tells whether the host lets a
    file of this name be created if there is none ([create_new]); the file is created before anything is read. *)
Definition hosted_command (allowed : list Z -> bool) (fuel : nat) (nt : ntfs) (sh : shell) (h : host) (c : command) (d : dev) : dev * (shell * host * hosted_reply) :=
  match c with
  | DoGet arg =>
      match host_file h (output_name arg), allowed (output_name arg) with
      | None, true => let '(d1, (sh1, r)) := run_command fuel nt sh c d in (d1, (sh1, (output_name arg, re_data r) :: h, Replied r))
      | _, _ => (d, (sh, h, CannotCreate))
      end
  | _ => let '(d1, (sh1, r)) := run_command fuel nt sh c d in (d1, (sh1, h, Replied r))
  end.
(** examples/ntfs-shell/main.rs 67-102: the command loop; the files of the host at the end. *)
Fixpoint hosted_commands (allowed : list Z -> bool) (fuel : nat) (nt : ntfs) (sh : shell) (h : host) (cs : list command) (d : dev) : list (hosted_reply * list Z) * host :=
  match cs with
  | [] => ([], h)
  | c :: t =>
      let '(d1, (sh1, h1, r)) := hosted_command allowed fuel nt sh h c d in
      let '(l, h2) := match r with
                      | Replied (mkReply _ _ Panic) | Replied (mkReply _ _ OutOfFuel) => ([], h1)
                      | _ => hosted_commands allowed fuel nt sh1 h1 t d1
                      end in
      ((r, sh_text sh1) :: l, h2)
  end.
(** examples/ntfs-shell/main.rs 34-105 [main]: a session of commands. *)
Definition hosted_session (allowed : list Z -> bool) (fuel : nat) (h : host) (cs : list command) (d : dev) : res (list (hosted_reply * list Z) * host) :=
  match shell_open fuel d with
  | (d1, Ok (nt, sh)) => Ok (hosted_commands allowed fuel nt sh h cs d1)
  | (_, Err x) => Err x
  | (_, Panic) => Panic
  | (_, OutOfFuel) => OutOfFuel
  end.
