(** AccessLog.v - how the lines of the access log get into the file when several threads log:
    /repo/wayuu_log.c:46-51. *)
From Verif Require Export LogLine HttpUtils.

(** Each call of log_access opens the file for appending, makes one fprintf and closes it.  What
    it writes goes through the buffer of its own stream, of st_blksize bytes: a text with fewer
    bytes is written by fclose with one write(2); a longer one with several, cut anywhere.  The
    file is open with O_APPEND, so that a write(2) adds its bytes at the end in one step (no
    write(2) is short). *)
Definition STDIO_BUFFER : Z := 4096.
Inductive written : str -> list str -> Prop :=
| w_nothing : written [] []
| w_once s : s <> [] -> len s < STDIO_BUFFER -> written s [s]
| w_pieces s ps : STDIO_BUFFER <= len s -> concat ps = s -> Forall (fun p => p <> []) ps -> written s ps.

(** The writes of a thread that logs these lines one after another. *)
Inductive thread_writes : list str -> list str -> Prop :=
| tw_none : thread_writes [] []
| tw_line s ls ps qs : written s ps -> thread_writes ls qs -> thread_writes (s :: ls) (ps ++ qs).

(** The threads' writes in the order of the schedule: [lrun] of LogLine.v, whose steps here are
    writes. *)
Definition append_run (old : str) (writes : list (list str)) (sched : list nat) : option (str * list (list str)) :=
  lrun (old, writes) sched.
