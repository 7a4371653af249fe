(* getopt_long of glibc (posix/getopt.c), as pre_parse_argv and parse_argv of src/main.cpp call it. *)
From Coq Require Import String.
From Verif Require Import Base Num Inet Conf Opts Main.
Open Scope string_scope.
Open Scope list_scope.
Open Scope Z_scope.

(* main.cpp:59: "he:rt:c:d:l:p:g:vV:s:T:y"; the letters, and whether an argument is required *)
Definition short_options : list Z := lit "he:rt:c:d:l:p:g:vV:s:T:y".
(* strchr in the option string, and the colon that may follow *)
Fixpoint find_short (s : list Z) (c : Z) : option bool :=
  match s with
  | [] => None
  | x :: r => if x =? c then Some (match r with y :: _ => y =? 58 | [] => false end) else find_short r c
  end.
Definition short_opt (c : Z) : option bool := if (c =? 58) || (c =? 59) then None else find_short short_options c.

(* main.cpp:44-57 *)
Record lopt : Type := mkLo { lo_name : list Z; lo_arg : bool; lo_val : Z }.
Definition long_options : list lopt :=
  let ch s := hd 0 (lit s) in
  [mkLo (lit "endpoints") true (ch "e"); mkLo (lit "conf-file") true (ch "c"); mkLo (lit "conf-dir") true (ch "d");
   mkLo (lit "report_msg_statistics") false (ch "r"); mkLo (lit "tcp-port") true (ch "t"); mkLo (lit "tcp-endpoint") true (ch "p");
   mkLo (lit "log") true (ch "l"); mkLo (lit "telemetry-log") false (ch "T"); mkLo (lit "debug-log-level") true (ch "g");
   mkLo (lit "syslog") false (ch "y"); mkLo (lit "verbose") false (ch "v"); mkLo (lit "version") false (ch "V");
   mkLo (lit "sniffer-sysid") true (ch "s")].

(* process_long_option: an exact match, or else all options the name abbreviates, if they do not differ *)
Definition same (a b : list Z) : bool := if list_eq_dec Z.eq_dec a b then true else false.
Definition find_long (n : list Z) : option lopt :=
  match filter (fun o => same (lo_name o) n) long_options with
  | o :: _ => Some o
  | [] => match filter (fun o => has_prefix n (lo_name o)) long_options with
          | o :: r => if forallb (fun q => eqb (lo_arg q) (lo_arg o) && (lo_val q =? lo_val o)) r then Some o else None
          | [] => None
          end
  end.
(* the text up to the first "=", and what follows it *)
Fixpoint split_eq (s : list Z) : list Z * option (list Z) :=
  match s with
  | [] => ([], None)
  | c :: r => if c =? 61 then ([], Some r) else let (n, v) := split_eq r in (c :: n, v)
  end.

(* what one word of the command line gives: options returned by successive calls, and an option whose argument is the next
   word.  63 is '?', returned for an error; the next call then goes on. *)
Definition bad : copt := mkCo 63 [].
Fixpoint cluster (s : list Z) : list copt * option Z :=
  match s with
  | [] => ([], None)
  | c :: r =>
    match short_opt c with
    | None => let (os, n) := cluster r in (bad :: os, n)
    | Some false => let (os, n) := cluster r in (mkCo c [] :: os, n)
    | Some true => match r with
                   | [] => ([], Some c)
                   | _ => ([mkCo c r], None)
                   end
    end
  end.
Definition long_word (s : list Z) : list copt * option Z :=
  let (n, v) := split_eq s in
  match find_long n with
  | None => ([bad], None)
  | Some o => match v with
              | Some a => if lo_arg o then ([mkCo (lo_val o) a], None) else ([bad], None)
              | None => if lo_arg o then ([], Some (lo_val o)) else ([mkCo (lo_val o) []], None)
              end
  end.
Definition word (a : list Z) : list copt * option Z :=
  match a with
  | 45 :: 45 :: s => long_word s
  | 45 :: s => cluster s
  | _ => ([], None)
  end.
(* NONOPTION_P *)
Definition nonoption (a : list Z) : bool := match a with 45 :: _ :: _ => false | _ => true end.

(* one scan: the options returned, and how the words are permuted: options with their arguments (and "--") first, then the
   other words.  (POSIXLY_CORRECT is not modelled.) *)
Record scanned : Type := mkSc { sc_opts : list copt; sc_used : list (list Z); sc_rest : list (list Z); sc_cut : bool }.
Fixpoint scan (argv : list (list Z)) : scanned :=
  match argv with
  | [] => mkSc [] [] [] false
  | a :: r =>
    if same a (lit "--") then mkSc [] [a] r false
    else if nonoption a then let s := scan r in mkSc (sc_opts s) (sc_used s) (a :: sc_rest s) (sc_cut s)
    else
      let (os, n) := word a in
      match n with
      | None => let s := scan r in mkSc (os ++ sc_opts s) (a :: sc_used s) (sc_rest s) (sc_cut s)
      | Some c => match r with
                  | b :: r => let s := scan r in mkSc (os ++ mkCo c b :: sc_opts s) (a :: b :: sc_used s) (sc_rest s) (sc_cut s)
                  | [] => mkSc (os ++ [bad]) [a] [] true                  (* the argument is missing *)
                  end
      end
  end.
Definition permuted (s : scanned) : list (list Z) := sc_used s ++ sc_rest s.

(* the first part of main, main.cpp:602-628, from the words of the command line: pre_parse_argv scans them, parse_argv scans
   them again as the first scan left them (optind = 1, main.cpp:179) *)
Definition configure_argv (v : fsview) (chr : list Z -> bool) (env_file env_dir : option (list Z)) (argv : list (list Z)) : res (option gconf) :=
  let s1 := scan argv in
  let s2 := scan (permuted s1) in
  match pre_parse (sc_opts s1) [] [] with
  | None => Ok None
  | Some (file, dir) =>
    let* (ret, g) := parse_conf_files v (choose file env_file (lit "/etc/mavlink-router/main.conf"))
                       (choose dir env_dir (lit "/etc/mavlink-router/config.d")) g_default in
    if ret <? 0 then Ok None
    else match parse_argv chr (sc_opts s2) (sc_rest s2) g with
         | (r, g) => Ok (if r =? 2 then Some g else None)
         end
  end.
