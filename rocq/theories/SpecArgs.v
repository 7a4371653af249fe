(* Command lines as the help text of the program describes them (src/main.cpp:61-101), stated apart from the model. *)
From Coq Require Import String.
From Verif Require Import Base Num Main.
Open Scope string_scope.
Open Scope list_scope.
Open Scope Z_scope.

(* the options of the help text: letter, long name, whether a value follows *)
Definition chr (s : string) : Z := hd 0 (lit s).
Record docopt : Type := mkDoc { d_letter : Z; d_name : list Z; d_value : bool }.
Definition documented : list docopt :=
  [mkDoc (chr "e") (lit "endpoint") true; mkDoc (chr "p") (lit "tcp-endpoint") true; mkDoc (chr "r") (lit "report_msg_statistics") false;
   mkDoc (chr "t") (lit "tcp-port") true; mkDoc (chr "c") (lit "conf-file") true; mkDoc (chr "d") (lit "conf-dir") true;
   mkDoc (chr "l") (lit "log") true; mkDoc (chr "T") (lit "telemetry-log") false; mkDoc (chr "g") (lit "debug-log-level") true;
   mkDoc (chr "v") (lit "verbose") false; mkDoc (chr "V") (lit "version") false; mkDoc (chr "s") (lit "sniffer-sysid") true;
   mkDoc (chr "y") (lit "syslog") false; mkDoc (chr "h") (lit "help") false].

(* how an option is written; the value may be the next word, or follow the letter, or follow the name and "=" *)
Inductive form : Type := Letter | Name.
Inductive spelled : docopt -> form -> list (list Z) -> list Z -> Prop :=
| sp_flag : forall d, d_value d = false -> spelled d Letter [lit "-" ++ [d_letter d]] []
| sp_value : forall d v, d_value d = true -> spelled d Letter [lit "-" ++ [d_letter d]; v] v
| sp_joined : forall d v, d_value d = true -> v <> [] -> spelled d Letter [lit "-" ++ [d_letter d] ++ v] v
| sp_name : forall d, d_value d = false -> spelled d Name [lit "--" ++ d_name d] []
| sp_name_value : forall d v, d_value d = true -> spelled d Name [lit "--" ++ d_name d; v] v
| sp_name_joined : forall d v, d_value d = true -> spelled d Name [lit "--" ++ d_name d ++ lit "=" ++ v] v.

(* a command line of such options, of the forms [ok], and of endpoints, which do not begin with "-" unless
   they are "-" itself *)
Definition plain_word (a : list Z) : Prop := match a with c :: _ :: _ => c <> 45 | _ => True end.
Inductive written (ok : docopt -> form -> Prop) : list (list Z) -> list copt -> list (list Z) -> Prop :=
| w_end : written ok [] [] []
| w_endpoint : forall a r os ps, plain_word a -> written ok r os ps -> written ok (a :: r) os (a :: ps)
| w_option : forall d f ws v r os ps, In d documented -> ok d f -> spelled d f ws v -> written ok r os ps ->
    written ok (ws ++ r) (mkCo (d_letter d) v :: os) ps
| w_dashes : forall r, written ok (lit "--" :: r) [] r.
