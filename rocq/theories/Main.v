(** * src/main.rs: from the command line to the exit status *)
From Verif Require Export Cli Process.

(** how the program ends: with this status, having done this; killed by a panic or
    a stack overflow; with clap's message about the command line; or with a command
    line about which nothing is said (see Cli.v) *)
Inductive ending := Exited (status : N) (w : world) | Crashed (w : world) | Usage | Unsaid.

(** main.rs:10-25.  [free]: nobody else holds the lock.  The status of [Usage] is
    clap's. *)
Definition main (args : list string) (free : bool) (e : env) (f : fs) : ending :=
  match configure (e_ext e) f args with
  | Start (Ok c) =>
      match try_main c free e (resume f) with
      | (Ok _, w) => Exited 0 w
      | (Err _, w) => Exited 1 w
      | (Panic, w) => Crashed w
      end
  | Start (Err _) => Exited 1 (resume f)
  | Start Panic => Crashed (resume f)
  | Refused => Usage
  | Odd => Unsaid
  end.
