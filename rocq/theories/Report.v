(* The statistics of an endpoint as printed once a second (option -r, ReportStats): Endpoint::print_statistics,
   src/endpoint.cpp:670-691. *)
From Coq Require Import String.
From Verif Require Import Base Names Num Frame.
Open Scope string_scope. Open Scope list_scope. Open Scope Z_scope.

(* printf %u of an uint32_t, PRIu64 of an uint64_t *)
Definition put_u (n : Z) : list Z := print_pad 0 n.
(* printf %d of an int *)
Definition put_d (n : Z) : list Z := if n <? 0 then 45 :: put_u (- n) else put_u n.
Definition nl : list Z := [10].
Definition tab : list Z := [9].

(* endpoint.cpp:678, 682: uint32_t arithmetic *)
Definition percent (x total : Z) : Z := u32 (x * 100) / total.

(* endpoint.cpp:670-691; the type, the descriptor, the name, what was received, messages and bytes sent *)
Definition report (type : list Z) (fd : Z) (name : list Z) (st : rstat) (wt wb : Z) : list Z :=
  let read_total := if s_total st =? 0 then 1 else s_total st in
  type ++ lit " Endpoint [" ++ put_d fd ++ lit "]" ++ name ++ lit " {" ++
  nl ++ tab ++ lit "Received messages {" ++
  nl ++ tab ++ tab ++ lit "CRC error: " ++ put_u (s_crc_err st) ++ lit " " ++ put_u (percent (s_crc_err st) read_total) ++ lit "% " ++
    put_u (s_crc_err_bytes st / 1000) ++ lit "KB" ++
  nl ++ tab ++ tab ++ lit "Sequence lost: " ++ put_u (s_drop st) ++ lit " " ++ put_u (percent (s_drop st) read_total) ++ lit "%" ++
  nl ++ tab ++ tab ++ lit "Handled: " ++ put_u (s_handled st) ++ lit " " ++ put_u (s_handled_bytes st / 1000) ++ lit "KB" ++
  nl ++ tab ++ tab ++ lit "Total: " ++ put_u (s_total st) ++
  nl ++ tab ++ lit "}" ++
  nl ++ tab ++ lit "Transmitted messages {" ++
  nl ++ tab ++ tab ++ lit "Total: " ++ put_u wt ++ lit " " ++ put_u (wb / 1000) ++ lit "KB" ++
  nl ++ tab ++ lit "}" ++ nl ++ lit "}" ++ nl.
