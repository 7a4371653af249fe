(* What the text of a configuration file means, line by line, independent of how it is parsed. *)
From Verif Require Import Base.

Definition white (c : Z) : bool := (c =? 32) || ((9 <=? c) && (c <=? 13)).

(* without white space at both ends *)
Fixpoint strip_front (l : list Z) : list Z :=
  match l with
  | c :: r => if white c then strip_front r else l
  | [] => []
  end.
Definition strip (l : list Z) : list Z := rev (strip_front (rev (strip_front l))).

(* the parts before and after the first [c] *)
Fixpoint cut (c : Z) (l : list Z) : option (list Z * list Z) :=
  match l with
  | [] => None
  | x :: r => if x =? c then Some ([], r) else match cut c r with Some (a, b) => Some (x :: a, b) | None => None end
  end.

(* the lines of a text that end with a newline, and what follows the last newline *)
Fixpoint lines (acc : list Z) (text : list Z) : list (list Z) :=
  match text with
  | [] => []
  | c :: r => if c =? 10 then rev acc :: lines [] r else lines (c :: acc) r
  end.
Definition lines_of (text : list Z) : list (list Z) := lines [] text.

Inductive line : Type :=
| Nothing                              (* blank or comment *)
| Header (name : list Z)               (* [name] *)
| Setting (key val : list Z)           (* key = value *)
| Wrong.

(* a section name: at most 100 characters, no white space at its ends, at most one blank inside *)
Definition good_name (name : list Z) : bool :=
  (Z.of_nat (length name) <=? 100) &&
  match name with [] => true | c :: _ => negb (white c) end &&
  match rev name with [] => true | c :: _ => negb (white c) end &&
  match filter white name with [] => true | [c] => c =? 32 | _ => false end.

Definition classify (l : list Z) : line :=
  if 2147483647 <? Z.of_nat (length l) then Wrong else
  match strip l with
  | [] => Nothing
  | c :: r =>
    if (c =? 59) || (c =? 35) then Nothing
    else if c =? 91 then
      match cut 93 r with
      | Some (name, []) => if good_name name then Header name else Wrong
      | _ => Wrong
      end
    else
      match cut 61 (c :: r) with
      | Some (a, b) => match a, b with
                       | _ :: _, _ :: _ => Setting (strip a) (strip b)
                       | _, _ => Wrong
                       end
      | None => Wrong
      end
  end.

(* what a file says, in order: section headers and settings with their section *)
Inductive item : Type :=
| Sec (name : list Z)
| Set_ (name key val : list Z).

(* None: the text is malformed *)
Fixpoint says (cur : option (list Z)) (ls : list (list Z)) : option (list item) :=
  match ls with
  | [] => Some []
  | l :: r =>
    match classify l with
    | Nothing => says cur r
    | Header name => match says (Some name) r with Some its => Some (Sec name :: its) | None => None end
    | Setting k v => match cur with
                     | None => None
                     | Some name => match says cur r with Some its => Some (Set_ name k v :: its) | None => None end
                     end
    | Wrong => None
    end
  end.
Definition meaning (text : list Z) : option (list item) := says None (lines_of text).

(* texts equal up to the case of ASCII letters *)
Definition fold_case (c : Z) : Z := if (65 <=? c) && (c <=? 90) then c + 32 else c.
Definition same (a b : list Z) : Prop := map fold_case a = map fold_case b.
Definition same_dec : forall a b, {same a b} + {~ same a b} := fun a b => list_eq_dec Z.eq_dec _ _.

(* the value in force after a sequence of items: the last setting of that key in that section *)
Fixpoint in_force (sec key : list Z) (its : list item) : option (list Z) :=
  match its with
  | [] => None
  | i :: r =>
    match in_force sec key r with
    | Some v => Some v
    | None => match i with
              | Set_ s k v => if same_dec s sec then if same_dec k key then Some v else None else None
              | Sec _ => None
              end
    end
  end.
(* the sections named, first spelling, in order of first appearance *)
Fixpoint named (seen : list (list Z)) (its : list item) : list (list Z) :=
  match its with
  | [] => []
  | Sec n :: r => if existsb (fun s => if same_dec s n then true else false) seen then named seen r else n :: named (seen ++ [n]) r
  | Set_ _ _ _ :: r => named seen r
  end.
