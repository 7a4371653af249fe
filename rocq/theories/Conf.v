(* Model of the configuration file reader, src/common/conf_file.cpp.  A file is the memory area it is mapped to; all
   reads go through [rd], so a read outside the mapping is [UB].  Keys, values and section names are copied where the
   code keeps pointers into the (private, read-only) mapping; file name and line number of an entry, which are only
   printed, are left out. *)
From Verif Require Import Base Names Num.

Definition MAX_SECTION_NAME : nat := 100.     (* conf_file.cpp:35 *)
Definition INT_MAX : Z := INT - 1.

(* struct config, conf_file.cpp:37-44 *)
Record centry : Type := mkCe { ce_key : list Z; ce_val : list Z }.
(* struct section, conf_file.cpp:46-51; [se_id] stands for its address; newest entry first *)
Record sect : Type := mkSe { se_id : nat; se_name : list Z; se_confs : list centry }.
(* ConfFile::_sections: newest first *)
Definition confs : Type := list sect.

(* memchr(m + off, c, len) *)
Fixpoint memchr (m : list Z) (off len : nat) (c : Z) : res (option nat) :=
  match len with
  | O => Ok None
  | Datatypes.S k => let* b := rd m off in if b =? c then Ok (Some off) else memchr m (Datatypes.S off) k c
  end.

(* ConfFile::_trim, conf_file.cpp:266-281: first loop (reads *s before it compares s with end) and second loop *)
Fixpoint trim_front (m : list Z) (s n : nat) : res (nat * nat) :=
  let* b := rd m s in
  match n with
  | O => Ok (s, O)
  | Datatypes.S k => if is_space b then trim_front m (Datatypes.S s) k else Ok (s, n)
  end.
Fixpoint trim_back (m : list Z) (s n : nat) : res nat :=
  match n with
  | O => Ok O
  | Datatypes.S k => let* b := rd m (s + k) in if is_space b then trim_back m s k else Ok n
  end.
Definition trim (m : list Z) (s n : nat) : res (nat * nat) :=
  let* (s, n) := trim_front m s n in
  let* n := trim_back m s n in
  Ok (s, n).

(* ConfFile::_find_config, conf_file.cpp:409-420 *)
Fixpoint find_config (key : list Z) (l : list centry) : option centry :=
  match l with
  | [] => None
  | c :: r => if (length (ce_key c) =? length key)%nat && ncaseeq (length key) key (ce_key c) then Some c
              else find_config key r
  end.
(* the assignment to the found entry, conf_file.cpp:253-258 *)
Fixpoint set_config (key val : list Z) (l : list centry) : list centry :=
  match l with
  | [] => []
  | c :: r => if (length (ce_key c) =? length key)%nat && ncaseeq (length key) key (ce_key c) then mkCe (ce_key c) val :: r
              else c :: set_config key val r
  end.

(* ConfFile::_find_section, conf_file.cpp:422-433 *)
Fixpoint find_section (name : list Z) (l : confs) : option sect :=
  match l with
  | [] => None
  | s :: r => if memcaseeq name (se_name s) then Some s else find_section name r
  end.

(* the loop over the characters of a section name, conf_file.cpp:187-206; true: acceptable *)
Fixpoint name_ok (m : list Z) (p n : nat) (spaces : bool) : res bool :=
  match n with
  | O => Ok true
  | Datatypes.S k =>
    let* b := rd m p in
    if is_space b then
      if negb (b =? 32) then Ok false
      else if spaces then Ok false
      else name_ok m (Datatypes.S p) k true
    else name_ok m (Datatypes.S p) k spaces
  end.

(* ConfFile::_add_section, conf_file.cpp:161-220; None: rejected; otherwise the section's address *)
Definition add_section (m : list Z) (a n : nat) (cs : confs) : res (option nat * confs) :=
  let* e := memchr m a n 93 in
  match e with
  | None => Ok (None, cs)
  | Some e =>
    if (e - a <? n - 1)%nat then Ok (None, cs)
    else
      let* last := rd m (e - 1) in
      let* first := rd m (a + 1) in
      if is_space last || is_space first then Ok (None, cs)
      else
        let* ok := name_ok m a (e - a) false in
        if negb ok then Ok (None, cs)
        else
          let* name := slice m (a + 1) (n - 2) in
          match find_section name cs with
          | Some s => Ok (Some (se_id s), cs)
          | None =>
            if (MAX_SECTION_NAME <? n - 2)%nat then Ok (None, cs)
            else Ok (Some (length cs), mkSe (length cs) name [] :: cs)
          end
  end.

(* new section contents at an address *)
Definition upd_section (id : nat) (f : list centry -> list centry) (cs : confs) : confs :=
  map (fun s => if (se_id s =? id)%nat then mkSe (se_id s) (se_name s) (f (se_confs s)) else s) cs.

(* conf_file.cpp:252-261 *)
Definition put_config (key val : list Z) (l : list centry) : list centry :=
  match find_config key l with
  | Some _ => set_config key val l
  | None => mkCe key val :: l
  end.

(* ConfFile::_add_config, conf_file.cpp:222-264 *)
Definition add_config (m : list Z) (id a n : nat) (cs : confs) : res (Z * confs) :=
  let* e := memchr m a n 61 in
  match e with
  | None => Ok (- EINVAL, cs)
  | Some e =>
    if (e =? a)%nat then Ok (- EINVAL, cs)
    else if (e =? a + n - 1)%nat then Ok (- EINVAL, cs)
    else
      let key_len := (e - a)%nat in
      let* (k, kn) := trim m a key_len in
      let* (v, vn) := trim m (e + 1) (n - key_len - 1) in
      let* key := slice m k kn in
      let* val := slice m v vn in
      Ok (0, upd_section id (put_config key val) cs)
  end.

(* ConfFile::_parse_file, conf_file.cpp:105-159; [cur]: the section s *)
Fixpoint parse_lines (fuel : nat) (m : list Z) (addr len : nat) (cs : confs) (cur : option nat) (ret : Z) : res (Z * confs) :=
  match fuel with
  | O => Fuel
  | Datatypes.S fuel =>
    let* e := memchr m addr len 10 in
    match e with
    | None => Ok (ret, cs)
    | Some e =>
      let full := (e - addr)%nat in
      let next := parse_lines fuel m (e + 1) (len - full - 1) in
      if INT_MAX <? Z.of_nat full then Ok (- EINVAL, cs)
      else
        let* (a, n) := trim m addr full in
        if (n =? 0)%nat then next cs cur ret
        else
          let* c := rd m a in
          if (c =? 59) || (c =? 35) then next cs cur ret
          else if c =? 91 then
            let* (s, cs) := add_section m a n cs in
            match s with
            | None => Ok (- EINVAL, cs)
            | Some id => next cs (Some id) ret
            end
          else
            match cur with
            | None => Ok (- EINVAL, cs)
            | Some id =>
              let* (r, cs) := add_config m id a n cs in
              if r <? 0 then Ok (r, cs) else next cs cur r
            end
    end
  end.
Definition parse_file (m : list Z) (cs : confs) : res (Z * confs) :=
  parse_lines (Datatypes.S (length m)) m 0 (length m) cs None 0.

(* what open, stat and mmap of a path yield: an error number or the file's contents *)
Inductive node : Type := NErr (errno : positive) | NData (data : list Z).

(* ConfFile::parse, conf_file.cpp:65-103; mmap refuses length 0 with EINVAL *)
Definition parse (f : node) (cs : confs) : res (Z * confs) :=
  match f with
  | NErr e => Ok (- Zpos e, cs)
  | NData [] => Ok (- EINVAL, cs)
  | NData data => parse_file data cs
  end.

(* fnmatch(prefix + "*", name, FNM_CASEFOLD) == 0 *)
Fixpoint fnstar (prefix name : list Z) : bool :=
  match prefix, name with
  | [], _ => true
  | p :: prefix, c :: name => (lower p =? lower c) && fnstar prefix name
  | _ :: _, [] => false
  end.

(* ConfFile::get_sections, conf_file.cpp:435-464: the list is the iterator: the sections not looked at yet.
   section_name has MAX_SECTION_NAME bytes and gets len characters and a NUL. *)
Fixpoint get_sections (prefix : list Z) (it : list sect) : res (option (sect * list sect)) :=
  match it with
  | [] => Ok None
  | s :: r =>
    if (length (se_name s) <? MAX_SECTION_NAME)%nat then
      if fnstar prefix (cstr (se_name s)) then Ok (Some (s, r)) else get_sections prefix r
    else UB
  end.
