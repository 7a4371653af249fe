(* Common definitions: result type with undefined behaviour, C integer wraps,
   byte-buffer primitives.  Nothing here is specific to one source file. *)
From Coq Require Export List ZArith Lia Bool Arith.
From Coq Require Export ZifyBool ZifyNat.
Export ListNotations.
Global Open Scope Z_scope.

(* Outcome of a C++ computation.  [UB]: the execution has undefined behaviour
   or hits a failing assertion.  [Fuel]: the model's step bound ran out. *)
Inductive res (A : Type) : Type :=
| Ok (a : A)
| UB
| Fuel.
Arguments Ok {A} _.
Arguments UB {A}.
Arguments Fuel {A}.

Definition bind {A B} (m : res A) (k : A -> res B) : res B :=
  match m with
  | Ok a => k a
  | UB => UB
  | Fuel => Fuel
  end.

Notation "'let*' x ':=' m 'in' k" := (bind m (fun x => k))
  (at level 200, x pattern, m at level 100, k at level 200, right associativity).

Lemma bind_Ok_inv : forall A B (m : res A) (k : A -> res B) b,
  bind m k = Ok b -> exists a, m = Ok a /\ k a = Ok b.
Proof. intros A B [a| |] k b H; simpl in H; try discriminate. eauto. Qed.

(* C unsigned conversions. *)
Definition u8 (z : Z) : Z := z mod 256.
Definition u16 (z : Z) : Z := z mod 65536.
Definition u32 (z : Z) : Z := z mod 4294967296.
Definition u64 (z : Z) : Z := z mod 18446744073709551616.

(* A value that fits in a uint8_t. *)
Definition is_byte (b : Z) : Prop := 0 <= b < 256.
Definition bytes (l : list Z) : Prop := Forall is_byte l.

(* buf[i], undefined outside the buffer. *)
Definition rd (mem : list Z) (i : nat) : res Z :=
  match nth_error mem i with
  | Some b => Ok b
  | None => UB
  end.

(* Overwrite [length bs] bytes at offset [off]; undefined outside the buffer. *)
Definition blit (mem : list Z) (off : nat) (bs : list Z) : res (list Z) :=
  if (off + length bs <=? length mem)%nat
  then Ok (firstn off mem ++ bs ++ skipn (off + length bs) mem)
  else UB.

(* n bytes from offset [off]; undefined outside the buffer. *)
Definition slice (mem : list Z) (off n : nat) : res (list Z) :=
  if (off + n <=? length mem)%nat then Ok (firstn n (skipn off mem)) else UB.

(* memmove(mem + dst, mem + src, n) inside one buffer. *)
Definition memmove (mem : list Z) (dst src n : nat) : res (list Z) :=
  let* bs := slice mem src n in blit mem dst bs.

(* Replace element i of a list (no effect when out of range). *)
Fixpoint set_nth {A} (i : nat) (x : A) (l : list A) : list A :=
  match l, i with
  | [], _ => []
  | _ :: t, O => x :: t
  | h :: t, S i' => h :: set_nth i' x t
  end.

Lemma set_nth_length : forall A i (x : A) l, length (set_nth i x l) = length l.
Proof. induction i; destruct l; simpl; auto. Qed.

Lemma nth_error_set_nth_eq : forall A i (x : A) l,
  (i < length l)%nat -> nth_error (set_nth i x l) i = Some x.
Proof. induction i; destruct l; simpl; intros; try lia; auto. apply IHi. lia. Qed.

Lemma nth_error_set_nth_neq : forall A i j (x : A) l,
  i <> j -> nth_error (set_nth i x l) j = nth_error l j.
Proof.
  induction i; destruct l; destruct j; simpl; intros; try congruence; auto.
Qed.

Lemma set_nth_out : forall A i (x : A) l,
  (length l <= i)%nat -> set_nth i x l = l.
Proof. induction i; destruct l; simpl; intros; auto; try lia. f_equal. apply IHi. lia. Qed.

Lemma rd_Ok : forall mem i, (i < length mem)%nat -> rd mem i = Ok (nth i mem 0).
Proof.
  intros. unfold rd. rewrite (nth_error_nth' mem 0 H). reflexivity.
Qed.

Lemma rd_inv : forall mem i b, rd mem i = Ok b -> (i < length mem)%nat /\ b = nth i mem 0.
Proof.
  intros mem i b H. unfold rd in H. destruct (nth_error mem i) eqn:E; try discriminate.
  injection H; intros; subst.
  split; [apply nth_error_Some; congruence | symmetry; apply nth_error_nth; assumption].
Qed.

Lemma slice_Ok : forall mem off n,
  (off + n <= length mem)%nat -> slice mem off n = Ok (firstn n (skipn off mem)).
Proof. intros. unfold slice. destruct (Nat.leb_spec (off + n) (length mem)); auto; lia. Qed.

Lemma blit_Ok : forall mem off bs,
  (off + length bs <= length mem)%nat ->
  blit mem off bs = Ok (firstn off mem ++ bs ++ skipn (off + length bs) mem).
Proof. intros. unfold blit. destruct (Nat.leb_spec (off + length bs) (length mem)); auto; lia. Qed.

Lemma blit_length : forall mem off bs mem',
  blit mem off bs = Ok mem' -> length mem' = length mem.
Proof.
  intros. unfold blit in H. destruct (Nat.leb_spec (off + length bs) (length mem)); try discriminate.
  injection H; intros; subst. rewrite !app_length, firstn_length, skipn_length. lia.
Qed.

Lemma memmove_Ok : forall mem dst src n,
  (dst + n <= length mem)%nat -> (src + n <= length mem)%nat ->
  memmove mem dst src n =
    Ok (firstn dst mem ++ firstn n (skipn src mem) ++ skipn (dst + n) mem).
Proof.
  intros. unfold memmove. rewrite slice_Ok by lia. simpl.
  assert (L : length (firstn n (skipn src mem)) = n)
    by (rewrite firstn_length, skipn_length; lia).
  rewrite blit_Ok by lia. rewrite L. reflexivity.
Qed.

Lemma memmove_length : forall mem dst src n mem',
  memmove mem dst src n = Ok mem' -> length mem' = length mem.
Proof.
  intros. unfold memmove in H. apply bind_Ok_inv in H. destruct H as [bs [_ H]].
  eapply blit_length; eauto.
Qed.

Lemma u32_range : forall z, 0 <= u32 z < 4294967296.
Proof. intros. unfold u32. apply Z.mod_pos_bound. lia. Qed.
Lemma u16_range : forall z, 0 <= u16 z < 65536.
Proof. intros. unfold u16. apply Z.mod_pos_bound. lia. Qed.
Lemma u8_range : forall z, 0 <= u8 z < 256.
Proof. intros. unfold u8. apply Z.mod_pos_bound. lia. Qed.
Lemma u64_range : forall z, 0 <= u64 z < 18446744073709551616.
Proof. intros. unfold u64. apply Z.mod_pos_bound. lia. Qed.
Lemma u32_small : forall z, 0 <= z < 4294967296 -> u32 z = z.
Proof. intros. unfold u32. apply Z.mod_small; auto. Qed.
Lemma u16_small : forall z, 0 <= z < 65536 -> u16 z = z.
Proof. intros. unfold u16. apply Z.mod_small; auto. Qed.
Lemma u8_small : forall z, 0 <= z < 256 -> u8 z = z.
Proof. intros. unfold u8. apply Z.mod_small; auto. Qed.
Lemma u64_small : forall z, 0 <= z < 18446744073709551616 -> u64 z = z.
Proof. intros. unfold u64. apply Z.mod_small; auto. Qed.

(* running a computation to find its result *)
Lemma Ok_witness : forall A (r : res A) (P : A -> bool),
  match r with Ok a => P a | _ => false end = true -> exists a, r = Ok a /\ P a = true.
Proof. intros A [a| |] P H; try discriminate. eauto. Qed.
