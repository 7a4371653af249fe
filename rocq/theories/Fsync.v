(* Bringing the log to the disk: the asynchronous fsync of LogEndpoint, src/logendpoint.cpp:353-386 (stop), 388-433 (start)
   and 447-463 (_fsync), and of its destruction.  The file is how many bytes were written to it. *)
From Verif Require Import Base.

Record aio : Type := mkAio {
  a_file : Z;              (* _file *)
  a_cb : Z;                (* _fsync_cb.aio_fildes *)
  a_busy : option Z;       (* the request in progress: how many bytes the file had when it was made *)
  a_written : Z;           (* bytes written to the current file *)
  a_disk : Z               (* bytes of it that survive a power failure *)
}.
(* the constructor, logendpoint.cpp:62-75 *)
Definition aio_new : aio := mkAio (-1) (-1) None 0 0.

Inductive aevent : Type :=
| AStart (fd : Z)          (* start opens the file *)
| AWrite (n : Z)           (* bytes are written *)
| ATick (ok : bool)        (* the fsync timer; whether aio_fsync takes the request *)
| ADone                    (* the request ends; aio_error no longer returns EINPROGRESS *)
| AStop
| ADestroy.

(* POSIX leaves changing or freeing a control block while its request is in progress, and using it for a second request,
   undefined.  What a request brings to the disk is what was written before it was made. *)
Definition aio_step (a : aio) (e : aevent) : res aio :=
  match e with
  | AStart fd => if negb (a_file a =? -1) then Ok a                                          (* 390-393 *)
                 else if fd <? 0 then Ok a
                 else Ok (mkAio fd (a_cb a) (a_busy a) 0 0)
  | AWrite n => if a_file a <? 0 then Ok a else Ok (mkAio (a_file a) (a_cb a) (a_busy a) (a_written a + n) (a_disk a))
  | ATick ok =>
    if a_file a <? 0 then Ok a                                                               (* 449-451 *)
    else
      let busy := match a_busy a with Some _ => true | None => false end in
      if (0 <=? a_cb a) && busy then Ok a                                                    (* 453-456 *)
      else if busy then UB                                                                   (* 457: changed, 460: used twice *)
      else Ok (mkAio (a_file a) (a_file a) (if ok then Some (a_written a) else None) (a_written a) (a_disk a))
  | ADone => match a_busy a with
             | None => Ok a
             | Some n => Ok (mkAio (a_file a) (a_cb a) None (a_written a) (Z.max n (a_disk a)))
             end
  | AStop =>                                                                                 (* 375-378 *)
    match a_busy a with
    | Some _ => UB
    | None => Ok (mkAio (-1) (-1) None (a_written a) (if a_file a <? 0 then a_disk a else a_written a))
    end
  | ADestroy => match a_busy a with Some _ => UB | None => Ok a end
  end.
Fixpoint aio_run (a : aio) (es : list aevent) : res aio :=
  match es with
  | [] => Ok a
  | e :: r => let* a := aio_step a e in aio_run a r
  end.
