(** Model of src/mod/common/db/denylist4.c: the IPv4 denylist of SIIT.

    Simplifications: the linked list is a Coq list in list order; the mutex
    makes additions, removals and flushes atomic, and RCU readers see one
    version of the list; allocation outcomes are arguments. *)
Require Import Verif.Base Verif.Addr_Model Verif.Paging.

(** denylist4.c:92-121 denylist4_add *)
Definition denylist4_add (l : list prefix4) (p : prefix4) (force mem : bool) : rc * list prefix4 :=
  match prefix4_validate p with
  | Err e => (Err e, l)
  | OK =>
    match prefix4_validate_scope p force with
    | Err e => (Err e, l)
    | OK => if mem then (OK, l ++ [p]) else (Err ENOMEM, l)
    end
  end.

(** denylist4.c:123-146 denylist4_rm: deletes the first equal entry *)
Fixpoint denylist4_rm (l : list prefix4) (p : prefix4) : rc * list prefix4 :=
  match l with
  | [] => (Err ESRCH, [])
  | x :: l' => if prefix4_equals p x then (OK, l')
               else let (r, l'') := denylist4_rm l' p in (r, x :: l'')
  end.

(** denylist4.c:148-166 denylist4_flush *)
Definition denylist4_flush (l : list prefix4) (mem : bool) : rc * list prefix4 :=
  if mem then (OK, []) else (Err ENOMEM, l).

(** denylist4.c:207-226 denylist4_contains *)
Definition denylist4_contains (l : list prefix4) (a : Z) : bool := existsb (fun p => prefix4_contains p a) l.

(** denylist4.c:228-253 denylist4_foreach, see [Paging.foreach_page]; and the
    whole listing as the user sees it *)
Definition denylist4_display (l : list prefix4) (caps : list nat) : listing prefix4 := list_pages prefix4_equals l caps.

(** denylist4.c:255-266 denylist4_is_empty *)
Definition denylist4_is_empty (l : list prefix4) : bool := match l with [] => true | _ => false end.

(** The address fields of struct in_ifaddr (kernel), in host order. *)
Record ifaddr := IfAddr { ifa_local : Z; ifa_mask : Z; ifa_prefixlen : Z }.

(** denylist4.c:172-192 check_ifa *)
Definition check_ifa (i : ifaddr) (query : Z) : bool :=
  ((ifa_prefixlen i <? 31) && (Z.lor (ifa_local i) (u32 (Z.lnot (ifa_mask i))) =? query))
  || (ifa_local i =? query).

(** denylist4.c:202-205 interface_contains; foreach_ifa (dev.c:59-79) visits
    the addresses of every interface of the namespace until the callback
    answers non-zero *)
Definition interface_contains (ifas : list ifaddr) (a : Z) : bool := existsb (fun i => check_ifa i a) ifas.

(** ** Histories *)
Inductive deny_op :=
| DAdd (p : prefix4) (force mem : bool)
| DRm (p : prefix4)
| DFlush (mem : bool).

Definition deny_step (l : list prefix4) (o : deny_op) : rc * list prefix4 :=
  match o with
  | DAdd p force mem => denylist4_add l p force mem
  | DRm p => denylist4_rm l p
  | DFlush mem => denylist4_flush l mem
  end.

Fixpoint deny_run (l : list prefix4) (ops : list deny_op) : list rc * list prefix4 :=
  match ops with
  | [] => ([], l)
  | o :: ops' => let (r, l1) := deny_step l o in let (rs, l2) := deny_run l1 ops' in (r :: rs, l2)
  end.
