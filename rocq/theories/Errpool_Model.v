(** The texts of errors: src/mod/common/error_pool.c, src/mod/common/log.c (log_err()), the part of src/mod/common/nl/nl_core.c that sends them, and
    src/mod/common/nl/nl_handler.c, which says when they are kept.

    A text is a list of characters (none of them null). The sizes are not bounded (they are size_t). The messages and
    nodes that are allocated and not freed are counted. The buffer that error_pool_get_message() gives, which jresponse_send_simple() frees on
    each of its paths, is not. *)
Require Import Verif.Base Verif.Addr_Model Verif.Rtrie_Model Verif.Pool4_Model Verif.Bib_Model Verif.Inst_Model Verif.Nla_Model.

(** src/mod/common/error_pool.c:24-26 enabled, msg_size, db; and how many objects (struct error_node, messages) are allocated *)
Record pool := Pool { p_enabled : bool; p_size : Z; p_db : list (list Z); p_heap : Z }.
(** src/mod/common/error_pool.c:28-31 error_pool_setup *)
Definition error_pool_setup : pool := Pool false 0 [] 0.
(** src/mod/common/error_pool.c:33-43 flush_list: the node and its message are freed. *)
Fixpoint flush_list (db : list (list Z)) (heap : Z) : Z := match db with [] => heap | _ :: db => flush_list db (heap - 1 - 1) end.
(** src/mod/common/error_pool.c:45-54 error_pool_teardown, error_pool_activate *)
Definition error_pool_teardown (p : pool) : pool := Pool (p_enabled p) (p_size p) [] (flush_list (p_db p) (p_heap p)).
Definition error_pool_activate (p : pool) : pool := Pool true 0 (p_db p) (p_heap p).
(** src/mod/common/error_pool.c:57-82 error_pool_add_message; [mem]: whether there is memory for the node *)
Definition error_pool_add_message (mem : bool) (msg : list Z) (p : pool) : pool :=
  if negb (p_enabled p) || negb mem then Pool (p_enabled p) (p_size p) (p_db p) (p_heap p - 1)
  else Pool (p_enabled p) (p_size p + zlen msg) (p_db p ++ [msg]) (p_heap p + 1).
(** src/mod/common/log.c:25-60 is_packet_context, log_err: [packet], whether it is a packet's context; [mem]: whether there is memory for the message;
    [text], what the format and the arguments say. vsnprintf() writes 255 characters and a null one. *)
Definition log_err (packet mem mem' : bool) (text : list Z) (p : pool) : pool :=
  if negb mem then p
  else
    let p := Pool (p_enabled p) (p_size p) (p_db p) (p_heap p + 1) in
    let msg := firstn 255 text in
    if packet then Pool (p_enabled p) (p_size p) (p_db p) (p_heap p - 1) else error_pool_add_message mem' msg p.

(** src/mod/common/error_pool.c:83-118 error_pool_get_message, in two parts. Until the buffer is there: its size *)
Definition get_alloc (mem : bool) (p : pool) : errno + Z :=
  if negb (p_enabled p) then inl EINVAL else if negb mem then inl ENOMEM else inr (p_size p + 1).
(** ... and the loop: strcpy() writes the message and a null character, which have to be within the buffer, of [size]. [pos]: buffer_pointer *)
Fixpoint get_copy (size pos : Z) (db : list (list Z)) (out : list Z) : res (list Z) :=
  match db with
  | [] => if pos <? size then Ok out else UB
  | m :: db => if pos + zlen m + 1 <=? size then get_copy size (pos + zlen m) db (out ++ m) else UB
  end.
Definition get_rest (size : Z) (p : pool) : res (list Z * pool) :=
  let! out := get_copy size 0 (p_db p) [] in Ok (out, Pool (p_enabled p) 0 [] (flush_list (p_db p) (p_heap p))).
Definition error_pool_get_message (mem : bool) (p : pool) : res ((errno + list Z) * pool) :=
  match get_alloc mem p with
  | inl e => Ok (inl e, p)
  | inr size => let! r := get_rest size p in Ok (inr (fst r), snd r)
  end.
(** src/mod/common/error_pool.c:121-126 error_pool_deactivate *)
Definition error_pool_deactivate (p : pool) : pool := Pool false 0 [] (flush_list (p_db p) (p_heap p)).

(** src/mod/common/nl/nl_core.c:125-133 jresponse_send_simple: the text that is put in the reply of [cap] octets (of which 36 are
    written); if it does not fit, a null character is written in its place 128: [size], of the buffer *)
Definition reply_text (cap size : Z) (text : list Z) : res (list Z) :=
  let n := zlen text + 1 in
  if 36 + (4 + n + padding n) <=? cap then Ok text else if 128 <? size then Ok (firstn 128 text) else UB.

(** What happens while a request is handled: something is logged, or the texts are fetched for the reply *)
Inductive act := Log (packet mem mem' : bool) (text : list Z) | Get (mem : bool).
Fixpoint run_acts (l : list act) (p : pool) : res (list (errno + list Z) * pool) :=
  match l with
  | [] => Ok ([], p)
  | Log packet mem mem' text :: l => run_acts l (log_err packet mem mem' text p)
  | Get mem :: l =>
    let! r := error_pool_get_message mem p in
    let! q := run_acts l (snd r) in Ok (fst r :: fst q, snd q)
  end.
(** src/mod/common/nl/nl_handler.c:31-42 pre_handle_request, post_handle_request. genl_family.parallel_ops is false: one request at a time. *)
Definition run_request (l : list act) (p : pool) : res (list (errno + list Z) * pool) :=
  let! r := run_acts l (error_pool_activate p) in Ok (fst r, error_pool_deactivate (snd r)).
(** The life of the module: requests, and things logged while there is none *)
Inductive item := Outside (packet mem mem' : bool) (text : list Z) | Request (l : list act).
Fixpoint run_items (l : list item) (p : pool) : res (list (list (errno + list Z)) * pool) :=
  match l with
  | [] => Ok ([], p)
  | Outside packet mem mem' text :: l => run_items l (log_err packet mem mem' text p)
  | Request a :: l =>
    let! r := run_request a p in
    let! q := run_items l (snd r) in Ok (fst r :: fst q, snd q)
  end.

(** src/mod/common/kernel_hook_iptables.c:33-51 target_checkentry, for an iptables rule whose instance's name is not valid: INAME_VALIDATE_ERRMSG
    (here, [text]) is logged. No mutex of Generic Netlink's is held. *)
Definition target_checkentry (valid : bool) (text : list Z) (p : pool) : rc * pool :=
  if valid then (OK, p) else (Err EINVAL, log_err false true true text p).
