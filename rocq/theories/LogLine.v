(** LogLine.v - the bytes that /repo/log.c:63-92 writes for a message, alone and when several
    threads log at the same time. *)
From Verif Require Export LogMain Time.

(** level_names - log.c:30-31 *)
Definition level_name (level : Z) : str :=
  nth (Z.to_nat level) [L "TRACE"; L "DEBUG"; L "INFO"; L "WARN"; L "ERROR"; L "FATAL"] [].
(** printf("%-5s") *)
Definition pad5 (s : str) : str := s ++ repeat SP (5 - length s).

(** A call of __logger that passes the level check: what time() and pthread_self() return, the
    arguments, and the formatted text. *)
Record said := mkSaid {
  sd_time : Z; sd_thread : Z; sd_level : Z; sd_file : str; sd_func : str; sd_line : Z; sd_text : str }.

(** Its three calls of stdio - log.c:79-83. *)
Definition log_calls (e : said) : outcome (list str) :=
  stamp <- format_timestamp (sd_time e);;                                                      (* 75 *)
  if (sd_level e <? 0) || (5 <? sd_level e) then UB OobRead                                    (* 79 *)
  else Ok [stamp ++ L " " ++ dec_nat (sd_thread e) ++ L " " ++ pad5 (level_name (sd_level e)) ++ L " "
             ++ sd_file e ++ L ":" ++ sd_func e ++ L ":" ++ dec (sd_line e) ++ L ": ";          (* 79 *)
           sd_text e;                                                                          (* 81 *)
           [LF]].                                                                              (* 83 *)

(** The bytes of messages logged one after another. *)
Fixpoint log_bytes (es : list said) : outcome str :=
  match es with
  | [] => Ok []
  | e :: t => c <- log_calls e;; r <- log_bytes t;; Ok (concat c ++ r)
  end.

(** Several threads: for each the stdio calls it has still to make.  A stdio call locks the
    stream, so that it is one step; __logger takes no lock of its own.  fflush (84) does not
    change the order of the bytes. *)
Definition lstate := (str * list (list str))%type.
Fixpoint take_call (k : nat) (ts : list (list str)) : option (str * list (list str)) :=
  match ts, k with
  | [], _ => None
  | [] :: _, O => None
  | (c :: cs) :: ts', O => Some (c, cs :: ts')
  | t :: ts', S k' => match take_call k' ts' with Some (c, ts'') => Some (c, t :: ts'') | None => None end
  end.
Fixpoint lrun (s : lstate) (sched : list nat) : option lstate :=
  match sched with
  | [] => Some s
  | k :: sched' => match take_call k (snd s) with Some (c, ts) => lrun (fst s ++ c, ts) sched' | None => None end
  end.
(** The calls of a thread that logs these messages. *)
Fixpoint thread_calls (es : list said) : outcome (list str) :=
  match es with
  | [] => Ok []
  | e :: t => c <- log_calls e;; r <- thread_calls t;; Ok (c ++ r)
  end.
Fixpoint all_calls (ths : list (list said)) : outcome (list (list str)) :=
  match ths with
  | [] => Ok []
  | t :: ths' => c <- thread_calls t;; r <- all_calls ths';; Ok (c :: r)
  end.
