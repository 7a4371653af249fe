(* Model of mkdir_p, src/common/util.cpp:112-177, on a tree of directories and files.  The buffer is a list of characters
   and positions are indices into it; an access outside it is undefined behaviour. *)
From Verif Require Import Base Num.

Definition ENOTDIR : Z := 20.
Definition EEXIST : Z := 17.

(* ---- the directory tree ---- *)

(* what a path, given by its components from the root, names.  Symbolic links and the special meaning of "." and ".."
   are not modelled. *)
Inductive entry : Type := Absent | Dir | File.
Definition tree : Type := list (list Z) -> entry.

(* the components of a path: the non-empty strings between slashes *)
Fixpoint comps_from (acc : list Z) (s : list Z) : list (list Z) :=
  match s with
  | [] => match acc with [] => [] | _ => [acc] end
  | c :: r => if c =? 47 then match acc with [] => comps_from [] r | _ => acc :: comps_from [] r end
              else comps_from (acc ++ [c]) r
  end.
Definition comps (s : list Z) : list (list Z) := comps_from [] s.
Definition absolute (s : list Z) : bool := match s with c :: _ => c =? 47 | [] => false end.
Definition resolve (cwd : list (list Z)) (s : list Z) : list (list Z) := (if absolute s then [] else cwd) ++ comps s.
Definition ends_slash (s : list Z) : bool := match rev s with c :: _ => c =? 47 | [] => false end.

(* stat(2) on a C string: the entry, or None when it fails (ENOENT or ENOTDIR); a path ending with a slash only names
   directories.  A file system that hides entries (EACCES) is not modelled. *)
Definition stat_ (t : tree) (cwd : list (list Z)) (s : list Z) : option entry :=
  match s with
  | [] => None
  | _ => match t (resolve cwd s) with
         | Absent => None
         | Dir => Some Dir
         | File => if ends_slash s then None else Some File
         end
  end.
(* is_dir, util.cpp:112-121: 1, 0, or negative *)
Definition is_dir (t : tree) (cwd : list (list Z)) (s : list Z) : Z :=
  match stat_ t cwd s with
  | Some Dir => 1
  | Some _ => 0
  | None => -1
  end.

(* the state of the file system: the tree, the directories created so far (in order) and the number of mkdir calls *)
Record dirs : Type := mkDirs { d_tree : tree; d_made : list (list (list Z)); d_calls : nat }.
Definition add_dir (t : tree) (p : list (list Z)) : tree := fun q => if list_eq_dec (list_eq_dec Z.eq_dec) q p then Dir else t q.
(* mkdir(2): 0 or -errno; [orc n]: the error of the n-th call (no space, no permission), 0 if there is none *)
Definition mkdir_ (orc : nat -> Z) (cwd : list (list Z)) (w : dirs) (s : list Z) : Z * dirs :=
  let p := resolve cwd s in
  let w' := mkDirs (d_tree w) (d_made w) (S (d_calls w)) in
  match s with
  | [] => (- ENOENT, w')
  | _ =>
    match d_tree w p with
    | Absent =>
      match d_tree w (removelast p) with
      | Dir => if orc (d_calls w) =? 0
               then (0, mkDirs (add_dir (d_tree w) p) (d_made w ++ [p]) (S (d_calls w)))
               else (- orc (d_calls w), w')
      | File => (- ENOTDIR, w')
      | Absent => (- ENOENT, w')
      end
    | _ => (- EEXIST, w')
    end
  end.

(* ---- the buffer ---- *)

Definition get (b : list Z) (i : nat) : res Z := match nth_error b i with Some c => Ok c | None => UB end.
Definition put (b : list Z) (i : nat) (c : Z) : res (list Z) :=
  if (i <? length b)%nat then Ok (firstn i b ++ c :: skipn (S i) b) else UB.
(* the C string at the start of a buffer; without terminating NUL: undefined *)
Fixpoint cstring (b : list Z) : res (list Z) :=
  match b with
  | [] => UB
  | c :: r => if c =? 0 then Ok [] else let* s := cstring r in Ok (c :: s)
  end.
Definition strlen (b : list Z) (i : nat) : res nat :=
  if (i <? length b)%nat then let* s := cstring (skipn i b) in Ok (length s) else UB.

(* util.cpp:158-161: while (end > start && *end != '/') end-- *)
Fixpoint back_char (b : list Z) (e : nat) : res nat :=
  match e with
  | O => Ok O
  | S e' => let* c := get b e in if c =? 47 then Ok e else back_char b e'
  end.
(* util.cpp:163-165: while (end > start && *(end - 1) == '/') end-- *)
Fixpoint back_slash (b : list Z) (e : nat) : res nat :=
  match e with
  | O => Ok O
  | S e' => let* c := get b e' in if c =? 47 then back_slash b e' else Ok e
  end.

(* the first loop, util.cpp:134-166: inl: the function returns, inr: the buffer and end after the loop *)
Fixpoint scan_back (fuel : nat) (t : tree) (cwd : list (list Z)) (len : nat) (b : list Z) (e : nat) : res (Z + list Z * nat) :=
  match fuel with
  | O => Fuel
  | S fuel =>
    let* p := cstring b in
    let r := is_dir t cwd p in
    if 0 <? r then
      let* n := strlen b e in
      let e := (e + n)%nat in
      if Nat.eqb e len then Ok (inl 0) else let* b := put b e 47 in Ok (inr (b, e))
    else if r =? 0 then Ok (inl (- ENOTDIR))
    else if Nat.eqb e 0 then Ok (inr (b, e))
    else
      let* b := put b e 0 in
      let* e := back_char b e in
      let* e := back_slash b e in
      scan_back fuel t cwd len b e
  end.
(* the second loop, util.cpp:168-175 *)
Fixpoint make_all (fuel : nat) (orc : nat -> Z) (cwd : list (list Z)) (len : nat) (w : dirs) (b : list Z) (e : nat) : res (Z * dirs) :=
  match fuel with
  | O => Fuel
  | S fuel =>
    if (e <? len)%nat then
      let* p := cstring b in
      let (r, w) := mkdir_ orc cwd w p in
      if (r <? 0) && negb (r =? - EEXIST) then Ok (r, w)
      else
        let* n := strlen b e in
        let e := (e + n)%nat in
        let* b := put b e 47 in
        make_all fuel orc cwd len w b e
    else Ok (0, w)
  end.
(* mkdir_p, util.cpp:123-177, called with the whole string; strndupa copies it with its NUL *)
Definition mkdir_p (orc : nat -> Z) (cwd : list (list Z)) (w : dirs) (path : list Z) : res (Z * dirs) :=
  let len := length path in
  let fuel := (len + 3)%nat in
  let* r := scan_back fuel (d_tree w) cwd len (path ++ [0]) len in
  match r with
  | inl r => Ok (r, w)
  | inr (b, e) => make_all fuel orc cwd len w b e
  end.

Example mkdir_ex : let w := mkDirs (fun p => match p with [] | [[118]] => Dir | _ => Absent end) [] 0 in
  match mkdir_p (fun _ => 0) [[118]] w [47; 118; 47; 47; 97; 47; 98; 47] with
  | Ok (r, w') => (r, d_made w')
  | _ => (99, [])
  end = (0, [[[118]; [97]]; [[118]; [97]; [98]]]).
Proof. vm_compute. reflexivity. Qed.
