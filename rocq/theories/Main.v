(* Model of src/main.cpp: command line, configuration files, the configuration handed to the main loop.  getopt_long is
   library code: the command line is given as the sequence of options it returns, with their arguments, and the
   positional arguments.  Usage output is left out. *)
From Coq Require Import String.
From Verif Require Import Base Names Num Conf Accept LogFile RouterSetup Opts Regex.
Local Open Scope string_scope.
Local Open Scope list_scope.
Local Open Scope Z_scope.

Definition UNSET : Z := ULONG_MAX.
Definition seq_ (a b : list Z) : bool := if list_eq_dec Z.eq_dec a b then true else false.

(* ---- validation ---- *)

(* UartEndpoint::validate_config, endpoint.cpp:1050-1063 *)
Definition validate_uart (u : uartc) : bool := negb (is_empty (ua_bauds u)) && negb (is_empty (ua_device u)).
(* UdpEndpoint::validate_config, endpoint.cpp:1411-1438 *)
Definition validate_udp (u : udpc) : bool :=
  negb (is_empty (ud_address u)) && validate_ip (ud_address u) && port_ok (ud_port u) &&
  match ud_mode u with UClient | UServer => true | UUndefined => false end.
(* TcpEndpoint::validate_config, endpoint.cpp:1764-1786 *)
Definition validate_tcp (u : tcpc) : bool :=
  negb (is_empty (tc_address u)) && validate_ip (tc_address u) && port_ok (tc_port u).

(* find_next_udp_port, main.cpp:95-107 *)
Fixpoint next_port (port : Z) (ip : list Z) (l : list udpc) : Z :=
  match l with
  | [] => port
  | c :: r => if seq_ ip (ud_address c) && (port =? ud_port c) then port + 1 else next_port port ip r
  end.
Definition find_next_udp_port (ip : list Z) (l : list udpc) : Z := next_port 14550 ip l.

(* strrchr(s, c): the parts before and after the last c *)
Fixpoint rcut (c : Z) (s : list Z) : option (list Z * list Z) :=
  match s with
  | [] => None
  | x :: r => match rcut c r with
              | Some (a, b) => Some (x :: a, b)
              | None => if x =? c then Some ([], r) else None
              end
  end.

(* split_on_last_colon, main.cpp:109-126: None: -EINVAL *)
Definition split_on_last_colon (s : list Z) : option (list Z * Z) :=
  match rcut 58 s with
  | None => Some (s, UNSET)
  | Some (base, num) => match safe_atoul num with
                        | (_, Some n) => Some (base, n)
                        | (_, None) => None
                        end
  end.

(* ---- configuration files ---- *)

Definition uart_prefix : list Z := lit "uartendpoint ".       (* section_pattern, endpoint.cpp:58 *)
Definition udp_prefix : list Z := lit "udpendpoint ".         (* endpoint.cpp:79 *)
Definition tcp_prefix : list Z := lit "tcpendpoint ".         (* endpoint.cpp:101 *)
Definition DEFAULT_BAUD : Z := 115200.                        (* endpoint.h:32 *)

(* the loop over the UART sections, main.cpp:458-477 *)
Fixpoint conf_uarts (fuel : nat) (it : list sect) (g : gconf) : res (Z * gconf) :=
  match fuel with
  | O => Fuel
  | Datatypes.S fuel =>
    let* nx := get_sections uart_prefix it in
    match nx with
    | None => Ok (0, g)
    | Some (s, it) =>
      let u := mkUa (skipn (length uart_prefix) (se_name s)) [] [] false no_filters [] in
      let* (ret, u) := extract_section s uart_table u in
      if negb (ret =? 0) then Ok (ret, g)
      else
        let u := if is_empty (ua_bauds u)
                 then mkUa (ua_name u) (ua_device u) [DEFAULT_BAUD] (ua_flow u) (ua_filters u) (ua_group u) else u in
        if negb (validate_uart u) then Ok (- EINVAL, g) else conf_uarts fuel it (add_uart g u)
    end
  end.

(* the loop over the UDP sections, main.cpp:479-499 *)
Fixpoint conf_udps (fuel : nat) (it : list sect) (g : gconf) : res (Z * gconf) :=
  match fuel with
  | O => Fuel
  | Datatypes.S fuel =>
    let* nx := get_sections udp_prefix it in
    match nx with
    | None => Ok (0, g)
    | Some (s, it) =>
      let u := mkUd (skipn (length udp_prefix) (se_name s)) [] UNSET UUndefined no_filters [] in
      let* (ret, u) := extract_section s udp_table u in
      if negb (ret =? 0) then Ok (ret, g)
      else
        let u := match ud_mode u with
                 | UClient => if ud_port u =? UNSET
                              then mkUd (ud_name u) (ud_address u) (find_next_udp_port (ud_address u) (g_udps g)) (ud_mode u) (ud_filters u) (ud_group u)
                              else u
                 | _ => u
                 end in
        if negb (validate_udp u) then Ok (- EINVAL, g) else conf_udps fuel it (add_udp g u)
    end
  end.

(* the loop over the TCP sections, main.cpp:501-516; retry_timeout{5}, endpoint.h:86 *)
Fixpoint conf_tcps (fuel : nat) (it : list sect) (g : gconf) : res (Z * gconf) :=
  match fuel with
  | O => Fuel
  | Datatypes.S fuel =>
    let* nx := get_sections tcp_prefix it in
    match nx with
    | None => Ok (0, g)
    | Some (s, it) =>
      let u := mkTc (skipn (length tcp_prefix) (se_name s)) [] UNSET 5 no_filters [] in
      let* (ret, u) := extract_section s tcp_table u in
      if negb (ret =? 0) then Ok (ret, g)
      else if negb (validate_tcp u) then Ok (- EINVAL, g) else conf_tcps fuel it (add_tcp g u)
    end
  end.

Definition general : list Z := lit "General".
(* parse_confs, main.cpp:432-519 *)
Definition parse_confs (cs : confs) (g : gconf) : res (Z * gconf) :=
  let* (ret, g) := extract_options cs general global_table g in
  if ret <? 0 then Ok (ret, g)
  else
    let* (ret, l) := extract_options cs general log_table (g_log g) in
    let g := with_log g l in
    if ret <? 0 then Ok (ret, g)
    else
      let fuel := Datatypes.S (length cs) in
      let* (ret, g) := conf_uarts fuel cs g in
      if negb (ret =? 0) then Ok (ret, g)
      else
        let* (ret, g) := conf_udps fuel cs g in
        if negb (ret =? 0) then Ok (ret, g) else conf_tcps fuel cs g.

(* strcmp on C strings: a <= b *)
Fixpoint str_le (a b : list Z) : bool :=
  match a, b with
  | [], _ => true
  | _ :: _, [] => false
  | x :: a, y :: b => if x <? y then true else if y <? x then false else str_le a b
  end.
(* qsort with cmpstr, main.cpp:521-524 *)
Fixpoint ins_str (x : list Z) (l : list (list Z)) : list (list Z) :=
  match l with
  | [] => [x]
  | y :: r => if str_le x y then x :: l else y :: ins_str x r
  end.
Fixpoint sort_str (l : list (list Z)) : list (list Z) :=
  match l with
  | [] => []
  | x :: r => ins_str x (sort_str r)
  end.

Definition MAX_FILES : nat := 128.                      (* char *files[128], main.cpp:531 *)
Definition PATH_MAX : Z := 4096.

(* a directory entry: its name, and whether stat says it is a regular file *)
Record dirent : Type := mkDe { de_name : list Z; de_reg : bool }.

(* the readdir loop, main.cpp:549-574: None: -EINVAL; files[i] is written before i is compared with the size *)
Fixpoint collect (dir : list Z) (ents : list dirent) (files : list (list Z)) : res (option (list (list Z))) :=
  match ents with
  | [] => Ok (Some files)
  | e :: r =>
    let path := dir ++ [47] ++ de_name e in
    if PATH_MAX <=? Z.of_nat (length path) then Ok None
    else if negb (de_reg e) then collect dir r files
    else if (length files <? MAX_FILES)%nat then
      let files := files ++ [path] in
      if (MAX_FILES <? length files)%nat then Ok (Some files) else collect dir r files
    else UB
  end.

(* the loop over the sorted files, main.cpp:578-584 *)
Fixpoint parse_each (fsys : list Z -> node) (files : list (list Z)) (cs : confs) : res (Z * confs) :=
  match files with
  | [] => Ok (0, cs)
  | f :: r =>
    let* (ret, cs) := parse (fsys f) cs in
    if ret <? 0 then Ok (ret, cs) else parse_each fsys r cs
  end.

(* the file system the program sees: contents by path, and the configuration directory; None: opendir failed *)
Record fsview : Type := mkFv { fv_node : list Z -> node; fv_dir : list Z -> option (list dirent) }.

(* parse_conf_files, main.cpp:526-600 *)
Definition parse_conf_files (v : fsview) (file dir : list Z) (g : gconf) : res (Z * gconf) :=
  let* (ret, cs) := parse (fv_node v file) [] in
  if (ret <? 0) && negb (ret =? - ENOENT) then Ok (ret, g)
  else
    match fv_dir v dir with
    | None => parse_confs cs g
    | Some ents =>
      let* fs := collect dir ents [] in
      match fs with
      | None => Ok (- EINVAL, g)
      | Some fs =>
        let* (ret, cs) := parse_each (fv_node v) (sort_str fs) cs in
        if ret <? 0 then Ok (ret, g) else parse_confs cs g
      end
    end.

(* ---- command line ---- *)

(* an option character as returned by getopt_long, with optarg (empty for options without argument) *)
Record copt : Type := mkCo { co_opt : Z; co_arg : list Z }.
Definition CLI : list Z := lit "CLI".

Definition is_opt (o : copt) (c : string) : bool := seq_ [co_opt o] (lit c).

(* one iteration of the option loop, main.cpp:192-312: None: go on; Some r: return r *)
Definition cli_option (o : copt) (g : gconf) : option Z * gconf :=
  let v := co_arg o in
  if is_opt o "h" then (Some 0, g)
  else if is_opt o "e" then
    match split_on_last_colon v with
    | None => (Some (- EINVAL), g)
    | Some (ip, port) =>
      (* find_next_udp_port gets opt_udp.address, which is still empty *)
      let port := if negb (port =? UNSET) then port else find_next_udp_port [] (g_udps g) in
      let u := mkUd CLI ip port UClient no_filters [] in
      if negb (validate_udp u) then (Some (- EINVAL), g) else (None, add_udp g u)
    end
  else if is_opt o "r" then (None, s_stats g true)
  else if is_opt o "t" then
    match safe_atoul v with
    | (_, Some p) => (None, s_tcp_port g p)
    | (_, None) => (Some (- EINVAL), g)
    end
  else if is_opt o "l" then (None, with_log g (s_dir (g_log g) v))
  else if is_opt o "T" then (None, with_log g (s_tlog (g_log g) true))
  else if is_opt o "g" then
    match log_level_from_str v with
    | Some l => (None, s_level g l)
    | None => (Some (- EINVAL), g)
    end
  else if is_opt o "v" then (None, s_level g LDebug)
  else if is_opt o "s" then
    let id := u16 (atoi v) in
    if (id =? 0) || (255 <? id) then (Some (- EINVAL), g) else (None, s_sniffer g id)
  else if is_opt o "p" then
    match split_on_last_colon v with
    | None => (Some (- EINVAL), g)
    | Some (ip, port) =>
      if port =? UNSET then (Some (- EINVAL), g)
      else
        let u := mkTc CLI ip port 5 no_filters [] in
        if negb (validate_tcp u) then (Some (- EINVAL), g) else (None, add_tcp g u)
    end
  else if is_opt o "c" || is_opt o "d" || is_opt o "y" || is_opt o "V" then (None, g)
  else (Some (- EINVAL), g).

Fixpoint cli_options (os : list copt) (g : gconf) : option Z * gconf :=
  match os with
  | [] => (None, g)
  | o :: r => match cli_option o g with
              | (None, g) => cli_options r g
              | (Some e, g) => (Some e, g)
              end
  end.

(* one positional argument, main.cpp:314-368; [chr]: the path names a character device *)
Definition cli_positional (chr : list Z -> bool) (a : list Z) (g : gconf) : option Z * gconf :=
  match split_on_last_colon a with
  | None => (Some (- EINVAL), g)
  | Some (base, number) =>
    if negb (chr base) then
      if number =? UNSET then (Some (- EINVAL), g)
      else
        let u := mkUd CLI base number UServer no_filters [] in
        if negb (validate_udp u) then (Some (- EINVAL), g) else (None, add_udp g u)
    else
      let baud := if negb (number =? UNSET) then u32 (atoi (skipn (Datatypes.S (length base)) a)) else DEFAULT_BAUD in
      (None, add_uart g (mkUa CLI base [baud] false no_filters []))
  end.
Fixpoint cli_positionals (chr : list Z -> bool) (l : list (list Z)) (g : gconf) : option Z * gconf :=
  match l with
  | [] => (None, g)
  | a :: r => match cli_positional chr a g with
              | (None, g) => cli_positionals chr r g
              | (Some e, g) => (Some e, g)
              end
  end.

(* parse_argv, main.cpp:184-371: 2 on success *)
Definition parse_argv (chr : list Z -> bool) (os : list copt) (pos : list (list Z)) (g : gconf) : Z * gconf :=
  match cli_options os g with
  | (Some e, g) => (e, g)
  | (None, g) => match cli_positionals chr pos g with
                 | (Some e, g) => (e, g)
                 | (None, g) => (2, g)
                 end
  end.

(* pre_parse_argv, main.cpp:149-182: the last -c and -d; None: -V ends the program *)
Fixpoint pre_parse (os : list copt) (file dir : list Z) : option (list Z * list Z) :=
  match os with
  | [] => Some (file, dir)
  | o :: r => if is_opt o "c" then pre_parse r (co_arg o) dir
              else if is_opt o "d" then pre_parse r file (co_arg o)
              else if is_opt o "V" then None
              else pre_parse r file dir
  end.
(* get_conf_file_name, get_conf_dir, main.cpp:373-403 *)
Definition choose (cli : list Z) (env : option (list Z)) (default : list Z) : list Z :=
  if negb (is_empty cli) then cli else match env with Some s => s | None => default end.

(* the first part of main, main.cpp:602-628: the configuration the main loop gets; None: the program ends *)
Definition configure (v : fsview) (chr : list Z -> bool) (env_file env_dir : option (list Z))
  (os : list copt) (pos : list (list Z)) : res (option gconf) :=
  match pre_parse os [] [] with
  | None => Ok None
  | Some (file, dir) =>
    let* (ret, g) := parse_conf_files v (choose file env_file (lit "/etc/mavlink-router/main.conf"))
                       (choose dir env_dir (lit "/etc/mavlink-router/config.d")) g_default in
    if ret <? 0 then Ok None
    else match parse_argv chr os pos g with
         | (r, g) => Ok (if r =? 2 then Some g else None)
         end
  end.

(* the configuration as the main loop's model takes it; [host]: the numeric form of an address *)
Definition ec_of_uart (u : uartc) : epconf := mkEc (CUart (ua_bauds u) (ua_flow u)) (validate_uart u) (ua_filters u) (ua_group u).
Definition ec_of_udp (host : list Z -> Z) (u : udpc) : epconf :=
  mkEc (CUdp (match ud_mode u with UServer => true | _ => false end) (host (ud_address u)) (ud_port u)) (validate_udp u) (ud_filters u) (ud_group u).
Definition ec_of_tcp (u : tcpc) : epconf := mkEc (CTcp (tc_retry u) (tc_port u)) (validate_tcp u) (tc_filters u) (tc_group u).
Definition to_config (host : list Z -> Z) (g : gconf) : config :=
  mkCf (map ec_of_uart (g_uarts g)) (map (ec_of_udp host) (g_udps g)) (map ec_of_tcp (g_tcps g)) (g_tcp_port g)
    (let l := g_log g in
     if is_empty (lo_dir l) then None
     else Some (mkLc (lo_dialect l) (lo_minfree l) (lo_maxlogs l) (lo_mode l) (lo_fcu l) (lo_tlog l)))
    (g_sniffer g) (g_stats g) (g_dedup g).
