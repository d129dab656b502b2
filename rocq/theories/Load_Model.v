(** The client that reads a configuration file and the kernel that receives it.

    src/usr/nl/core.c:224-274 joolnl_request waits for the kernel's answer to a message before it returns,
    so the client's messages are served one after the other; between them, anything else
    can happen in the kernel. *)
Require Import Verif.Base Verif.Addr_Model Verif.Glob_Model Verif.Inst_Model Verif.File_Model.

Section Load.
Context {D : Type} (W : databases D entry).
Notation op := (op (D := D) (E := entry)).

(** What has happened before the client starts; what happens between its messages (before
    the [i]th); and the circumstances in which its [i]th message is served. *)
Record situation := Sit { past : list op; meanwhile : nat -> list op; circ : nat -> env }.

(** Everything that happens from before the [i]th message to the end of the messages *)
Fixpoint history (S : situation) (i : nat) (ms : list message) : list op :=
  match ms with
  | [] => []
  | m :: ms => meanwhile S i ++ Atomic (circ S i) m :: history S (Datatypes.S i) ms
  end.
(** The kernel right after messages, and when the next message arrives *)
Definition reached (S : situation) (ms : list message) : state D := run W init (past S ++ history S 0 ms).
Definition found (S : situation) (ms : list message) : state D := run W (reached S ms) (meanwhile S (length ms)).
(** The answer to the last of the messages: [u_kernel] *)
Definition answer (S : situation) (ms : list message) : rc :=
  match rev ms with
  | [] => OK
  | m :: before => fst (step W (found S (rev before)) (Atomic (circ S (length before)) m))
  end.
End Load.
