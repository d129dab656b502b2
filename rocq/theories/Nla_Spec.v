(** What it means for a value to be carried by a Netlink message. Independent
    of how the two sides write and read the values; only Netlink's own
    functions (the header of an attribute, [first_attr], [nla_type]) are used. *)
Require Import Verif.Base Verif.Addr_Model Verif.File_Model Verif.Nla_Model.

(** One side's function [write] puts the value [v] in an attribute of [size] octets
    if they fit, and leaves the message as it was if they do not. Whatever the message
    contains already and whatever is written in it afterwards, an attribute of type
    [ty] is what the other side finds there, and its function [read] makes the value [w] of it. *)
Definition carries {V W : Type} (h : host) (write : Z -> Z -> V -> list Z -> put) (read : attr -> rd W) (v : V) (w : W) (size : Z) : Prop :=
  forall cap ty b, 1 <= ty <= 16383 ->
  match write cap ty v b with
  | Put b' =>
    zlen b + size <= cap /\
    exists x, b' = b ++ x /\ zlen x = size /\
      forall after, exists a, first_attr h (x ++ after) = Some (a, after) /\ nla_type a = ty /\ read a = Got w
  | NoRoom b' => cap < zlen b + size /\ b' = b
  end.

(** Values that fit the fields of the structures *)
Definition fit_taddr6 (a : Z * Z) : Prop := is_u128 (fst a) /\ is_u16 (snd a).
Definition fit_taddr4 (a : Z * Z) : Prop := is_u32 (fst a) /\ is_u16 (snd a).
Definition fit_entry (e : entry) : Prop :=
  match e with
  | EEam p6 p4 => wt_prefix6 p6 /\ wt_prefix4 p4
  | EDeny p => wt_prefix4 p
  | EPool4 mark iterations flags proto p ports =>
      is_u32 mark /\ is_u32 iterations /\ is_u8 flags /\ is_u8 proto /\ wt_prefix4 p /\ is_u16 (fst ports) /\ is_u16 (snd ports)
  | EBib a6 a4 proto static => fit_taddr6 a6 /\ fit_taddr4 a4 /\ is_u8 proto
  end.
Definition fit_session (s : usession) : Prop :=
  fit_taddr6 (us_src6 s) /\ fit_taddr6 (us_dst6 s) /\ fit_taddr4 (us_src4 s) /\ fit_taddr4 (us_dst4 s) /\
  is_u8 (us_proto s) /\ is_u8 (us_state s) /\ is_u32 (us_dying s).

(** Memory *)
Definition octets_ok (a : attr) : Prop := Forall is_u8 (a_data a).

(** Where an entry belongs, and the octets it takes in a message: four of header per attribute, and the
    fields padded to four (address of IPv6: 16, of IPv4: 4, everything else: 4) *)
Definition home (e : entry) : table_kind :=
  match e with EEam _ _ => TEamt | EDeny _ => TDenylist4 | EPool4 _ _ _ _ _ _ => TPool4 | EBib _ _ _ _ => TBib end.
Definition entry_size (e : entry) : Z :=
  match e with EEam _ _ => 56 | EDeny _ => 20 | EPool4 _ _ _ _ _ _ => 72 | EBib _ _ _ _ => 72 end.

(** A function that reads either makes something sensible of the memory, or reports an error. *)
Definition sane {A} (P : A -> Prop) (r : rd A) : Prop := (exists a, r = Got a /\ P a) \/ exists e, r = Bad e.
