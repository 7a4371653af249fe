(* The program's own messages: src/common/log.cpp, and when main opens the log and sets its level, src/main.cpp:601-640.
   A message is its formatted text. *)
From Coq Require Import String.
From Verif Require Import Base Num.
Open Scope string_scope. Open Scope list_scope. Open Scope Z_scope.

(* log.h:27-34; the numbers of the enumeration *)
Definition L_ERROR := 0. Definition L_WARNING := 1. Definition L_NOTICE := 2. Definition L_INFO := 3. Definition L_DEBUG := 4. Definition L_TRACE := 5.

Inductive backend : Type := ToStderr | ToSyslog.
(* the static members, log.cpp:35-38 *)
Record logst : Type := mkLs { l_max : Z; l_fd : Z; l_colors : bool; l_backend : backend }.
Definition log_static : logst := mkLs L_INFO (-1) false ToStderr.

(* what leaves the program *)
Inductive lout : Type := OFd (fd : Z) (bytes : list Z) | OSyslog (prio : Z) (text : list Z).

Definition esc (x : string) : list Z := 27 :: lit x.
(* _get_color, log.cpp:40-62 *)
Definition color (s : logst) (level : Z) : option (list Z) :=
  if negb (l_colors s) then None
  else if level =? L_ERROR then Some (esc "[31m")
  else if level =? L_WARNING then Some (esc "[0;33m")
  else if level =? L_NOTICE then Some (esc "[33;1m")
  else if level =? L_INFO then Some (esc "[37;1m")
  else if level =? L_DEBUG then Some (esc "[34;1m")
  else None.
Definition reset : list Z := esc "[0m".

(* syslog_log_level, log.cpp:169-186, with the priorities of syslog.h *)
Definition syslog_level (level : Z) : Z :=
  if level =? L_ERROR then 3 else if level =? L_WARNING then 4 else if level =? L_NOTICE then 5 else if level =? L_INFO then 6 else 7.

(* Log::open, log.cpp:64-84; [tty]: isatty *)
Definition log_open (b : backend) (tty : bool) (s : logst) : logst :=
  if negb (l_fd s <? 0) then s
  else match b with
       | ToStderr => mkLs (l_max s) 2 (if tty then true else l_colors s) b
       | ToSyslog => mkLs (l_max s) (l_fd s) (l_colors s) b
       end.
(* 101-104 *)
Definition set_max_level (level : Z) (s : logst) : logst := mkLs level (l_fd s) (l_colors s) (l_backend s).

(* LINE_MAX of limits.h *)
Definition LINE_MAX : nat := 2048.
(* logv_to_fd, log.cpp:106-139: vsnprintf cuts the text; all parts with one writev, whose result is ignored (a write to
   descriptor -1 fails; other writes are taken to be complete) *)
Definition to_fd (s : logst) (level : Z) (text : list Z) : list lout :=
  let buf := firstn (LINE_MAX - 1) text in
  let line := match color s level with
              | Some c => c ++ buf ++ reset ++ lit "
"
              | None => buf ++ lit "
"
              end in
  if l_fd s <? 0 then [] else [OFd (l_fd s) line].
(* logv, log.cpp:141-158 *)
Definition log (s : logst) (m : Z * list Z) : list lout :=
  let (level, text) := m in
  if l_max s <? level then []
  else match l_backend s with
       | ToStderr => to_fd s level text
       | ToSyslog => [OSyslog (syslog_level level) text]
       end.

(* main, main.cpp:601-640: the version, [early] while reading the configuration and the command line, then [late];
   [level]: the configured level *)
Definition main_log (b : backend) (tty : bool) (level : Z) (version : list Z) (early late : list (Z * list Z)) : list lout :=
  let s := log_open b tty log_static in
  log s (L_INFO, version) ++ flat_map (log s) early ++ flat_map (log (set_max_level level s)) late.
