(** Model of src/mod/common/db/eam.c: the explicit address mapping table, two
    tries (see [Rtrie_Model]) holding the same entries under their IPv6 and
    IPv4 prefixes.

    Simplifications: the mutex is dropped (operations are atomic); [WARN] only
    logs; the outcomes of the allocations made inside the tries are arguments. *)
Require Import Verif.Base Verif.Addr_Model Verif.Rtrie_Model.

(** struct eamt_entry: src/common/config.h *)
Record eam := Eam { e_p6 : prefix6; e_p4 : prefix4 }.

(** Bits of an address, most significant first; [Rtrie_Key.key_of_octets]
    relates this to the bytes the C code points the key at. *)
Definition kbits (w a len : Z) : key :=
  map (fun i => msb_bit w a (Z.of_nat i)) (seq 0 (Z.to_nat len)).

(** eam.c:13 PREFIX_TO_KEY *)
Definition key6 (p : prefix6) : key := kbits 128 (p6_addr p) (p6_len p).
Definition key4 (p : prefix4) : key := kbits 32 (p4_addr p) (p4_len p).
(** eam.c:12 ADDR_TO_KEY *)
Definition akey6 (a : Z) : key := kbits 128 a 128.
Definition akey4 (a : Z) : key := kbits 32 a 32.

(** eam.c:32-41 struct eam_table *)
Record eamt := Eamt { trie6 : trie eam; trie4 : trie eam; ecount : Z }.

(** eam.c:45-50 eamt_entry_equals *)
Definition eamt_entry_equals (a b : eam) : bool :=
  prefix6_equals (e_p6 a) (e_p6 b) && prefix4_equals (e_p4 a) (e_p4 b).

(** eam.c:56-73 validate_prefixes *)
Definition validate_prefixes (e : eam) : rc :=
  match prefix6_validate (e_p6 e) with
  | Err x => Err x
  | OK =>
    match prefix4_validate (e_p4 e) with
    | Err x => Err x
    | OK => if 32 - p4_len (e_p4 e) >? 128 - p6_len (e_p6 e) then Err EINVAL else OK
    end
  end.

(** eam.c:81-105 collision6: both equal-length branches return -EEXIST *)
Definition collision6 (new old : eam) (force : bool) : rc :=
  if p6_len (e_p6 new) =? p6_len (e_p6 old) then Err EEXIST
  else if force then OK else Err EEXIST.

(** eam.c:107-132 collision4 *)
Definition collision4 (new old : eam) (force : bool) : rc :=
  if p4_len (e_p4 new) =? p4_len (e_p4 old) then Err EEXIST
  else if force then OK else Err EEXIST.

(** eam.c:134-160 validate_overlapping: only the base address is looked up *)
Definition validate_overlapping (t : eamt) (new : eam) (force : bool) : res rc :=
  let! old6 := rtrie_find (trie6 t) (akey6 (p6_addr (e_p6 new))) in
  match (match old6 with Some o => collision6 new o force | None => OK end) with
  | Err x => Ok (Err x)
  | OK =>
    let! old4 := rtrie_find (trie4 t) (akey4 (p4_addr (e_p4 new))) in
    Ok (match old4 with Some o => collision4 new o force | None => OK end)
  end.

(** Allocation outcomes of one addition: leaf and inode of each trie, and the
    inode a revert may need. *)
Record amem := AMem { m6a : bool; m6b : bool; m4a : bool; m4b : bool; mrev : bool }.

(** eam.c:211-239 eamt_add, with eamt_add6 (173-190), eamt_add4 (192-209) and
    __revert_add6 (162-171) *)
Definition eamt_add (t : eamt) (new : eam) (force : bool) (m : amem) : res (rc * eamt) :=
  match validate_prefixes new with
  | Err x => Ok (Err x, t)
  | OK =>
    let! v := validate_overlapping t new force in
    match v with
    | Err x => Ok (Err x, t)
    | OK =>
      let! r6 := rtrie_add (trie6 t) (m6a m) (m6b m) (key6 (e_p6 new)) new in
      let t := Eamt (snd r6) (trie4 t) (ecount t) in
      match fst r6 with
      | Err x => Ok (Err x, t)
      | OK =>
        let! r4 := rtrie_add (trie4 t) (m4a m) (m4b m) (key4 (e_p4 new)) new in
        let t := Eamt (trie6 t) (snd r4) (ecount t) in
        match fst r4 with
        | Err x =>
          let! r := rtrie_rm (trie6 t) (mrev m) (key6 (e_p6 new)) in
          Ok (Err x, Eamt (snd r) (trie4 t) (ecount t))
        | OK => Ok (OK, Eamt (trie6 t) (trie4 t) (u64 (ecount t + 1)))
        end
      end
    end
  end.

(** eam.c:241-252 get_exact6; [None] is -ESRCH *)
Definition get_exact6 (t : eamt) (p : prefix6) : res (option eam) :=
  let! r := rtrie_find (trie6 t) (key6 p) in
  Ok (match r with
      | Some e => if p6_len (e_p6 e) =? p6_len p then Some e else None
      | None => None
      end).

(** eam.c:254-265 get_exact4 *)
Definition get_exact4 (t : eamt) (p : prefix4) : res (option eam) :=
  let! r := rtrie_find (trie4 t) (key4 p) in
  Ok (match r with
      | Some e => if p4_len (e_p4 e) =? p4_len p then Some e else None
      | None => None
      end).

(** eam.c:267-291 __rm.  [m1], [m2]: inode allocations of the removals. *)
Definition eamt__rm (t : eamt) (p6 : prefix6) (p4 : prefix4) (m1 m2 : bool) : res (rc * eamt) :=
  let! r6 := rtrie_rm (trie6 t) m1 (key6 p6) in
  let t := Eamt (snd r6) (trie4 t) (ecount t) in
  match fst r6 with
  | Err x => Ok (Err x, t)
  | OK =>
    let! r4 := rtrie_rm (trie4 t) m2 (key4 p4) in
    let t := Eamt (trie6 t) (snd r4) (ecount t) in
    match fst r4 with
    | Err x => Ok (Err x, t)
    | OK => Ok (OK, Eamt (trie6 t) (trie4 t) (u64 (ecount t - 1)))
    end
  end.

(** eam.c:293-321 eamt_rm_lockless and eamt_rm *)
Definition eamt_rm (t : eamt) (o6 : option prefix6) (o4 : option prefix4) (m1 m2 : bool) : res (rc * eamt) :=
  match o6, o4 with
  | None, None => Ok (Err EINVAL, t)
  | Some p6, None =>
    let! e := get_exact6 t p6 in
    match e with None => Ok (Err ESRCH, t) | Some e => eamt__rm t p6 (e_p4 e) m1 m2 end
  | None, Some p4 =>
    let! e := get_exact4 t p4 in
    match e with None => Ok (Err ESRCH, t) | Some e => eamt__rm t (e_p6 e) p4 m1 m2 end
  | Some p6, Some p4 =>
    let! a := get_exact6 t p6 in
    match a with
    | None => Ok (Err ESRCH, t)
    | Some a =>
      let! b := get_exact4 t p4 in
      match b with
      | None => Ok (Err ESRCH, t)
      | Some b => if eamt_entry_equals a b then eamt__rm t p6 p4 m1 m2 else Ok (Err ESRCH, t)
      end
    end
  end.

(** eam.c:370-377: suffix copy of eamt_xlat_6to4 *)
Definition eam_xlat_6to4 (e : eam) (a6 : Z) : Z :=
  fold_left (fun a4 i => addr4_set_bit a4 (p4_len (e_p4 e) + Z.of_nat i)
                           (addr6_get_bit a6 (p6_len (e_p6 e) + Z.of_nat i)))
            (seq 0 (Z.to_nat (32 - p4_len (e_p4 e)))) (p4_addr (e_p4 e)).

(** eam.c:402-409: suffix copy of eamt_xlat_4to6 *)
Definition eam_xlat_4to6 (e : eam) (a4 : Z) : Z :=
  fold_left (fun a6 i => addr6_set_bit a6 (p6_len (e_p6 e) + Z.of_nat i)
                           (addr4_get_bit a4 (p4_len (e_p4 e) + Z.of_nat i)))
            (seq 0 (Z.to_nat (32 - p4_len (e_p4 e)))) (p6_addr (e_p6 e)).

(** eam.c:353-382 eamt_xlat_6to4; [None] is -ESRCH *)
Definition eamt_xlat_6to4 (t : eamt) (a6 : Z) : res (option (Z * eam)) :=
  let! r := rtrie_find (trie6 t) (akey6 a6) in
  Ok (match r with Some e => Some (eam_xlat_6to4 e a6, e) | None => None end).

(** eam.c:385-414 eamt_xlat_4to6 *)
Definition eamt_xlat_4to6 (t : eamt) (a4 : Z) : res (option (Z * eam)) :=
  let! r := rtrie_find (trie4 t) (akey4 a4) in
  Ok (match r with Some e => Some (eam_xlat_4to6 e a4, e) | None => None end).

(** eam.c:339-343 eamt_contains6, eamt_contains4 *)
Definition eamt_contains6 (t : eamt) (a6 : Z) : res bool := rtrie_contains (trie6 t) (akey6 a6).
Definition eamt_contains4 (t : eamt) (a4 : Z) : res bool := rtrie_contains (trie4 t) (akey4 a4).

(** eam.c:416-419 eamt_is_empty *)
Definition eamt_is_empty (t : eamt) : bool := rtrie_is_empty (trie6 t).

(** eam.c:432-451 eamt_foreach with a callback that takes everything *)
Definition eamt_foreach (t : eamt) (offset : option prefix4) : res (rc * list eam) :=
  rtrie_foreach (trie4 t) (option_map key4 offset).

(** eam.c:453-460 eamt_flush *)
Definition eamt_flush (t : eamt) : eamt := Eamt (rtrie_flush (trie6 t)) (rtrie_flush (trie4 t)) 0.

(** eam.c:462-476 eamt_alloc *)
Definition eamt_alloc : eamt := Eamt rtrie_init rtrie_init 0.

(** ** Histories *)
Inductive eam_op :=
| EAdd (e : eam) (force : bool) (m : amem)
| ERm (o6 : option prefix6) (o4 : option prefix4) (m1 m2 : bool)
| EFlush.

Definition eam_step (t : eamt) (o : eam_op) : res (rc * eamt) :=
  match o with
  | EAdd e force m => eamt_add t e force m
  | ERm o6 o4 m1 m2 => eamt_rm t o6 o4 m1 m2
  | EFlush => Ok (OK, eamt_flush t)
  end.

Fixpoint eam_run (t : eamt) (ops : list eam_op) : res (list rc * eamt) :=
  match ops with
  | [] => Ok ([], t)
  | o :: ops' =>
    let! r := eam_step t o in
    let! rest := eam_run (snd r) ops' in
    Ok (fst r :: fst rest, snd rest)
  end.
