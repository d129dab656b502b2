(** What a listing should show. Nothing here mentions attributes or headers. *)
Require Import Verif.Base Verif.Addr_Model Verif.Pool4_Model Verif.Bib_Model Verif.Glob_Model Verif.Inst_Model Verif.File_Model Verif.Nla_Model Verif.Nla_Spec
  Verif.Req_Model Verif.Req_Spec Verif.Lst_Model.

(** The octets that an item takes in a message: four of header per attribute, and the fields padded to four *)
Definition item_size (x : item) : Z :=
  match x with
  | IEntry e => entry_size e
  | ISession _ => 140
  | ISetting _ (VU8 _ | VU32 _) => 8
  | ISetting _ (VPlateaus l) => 4 + 8 * zlen l
  | ISetting _ (VPrefix6 _ (Some _)) => 32
  | ISetting _ (VPrefix4 _ (Some _)) => 20
  | ISetting _ _ => 12
  end.
(** How many of the first items fit in [room] octets *)
Fixpoint fits (room : Z) (l : list item) : nat :=
  match l with [] => O | x :: l => if item_size x <=? room then S (fits (room - item_size x) l) else O end.

(** What there may be in each table: entries whose fields fit their C types; those of a protocol, of that protocol; settings that exist, booleans that are 0 or 1 *)
Definition boolean_setting (id : Z) : Prop := In id [1; 4; 5; 6; 9; 11; 14; 15; 16; 17; 19; 24; 25; 27; 28].
Definition fit_item (xt : Z) (l : listing) (x : item) : Prop :=
  match l, x with
  | LEamt, IEntry e => home e = TEamt /\ fit_entry e
  | LDeny, IEntry e => home e = TDenylist4 /\ fit_entry e
  | LPool4 q, IEntry e => fit_entry e /\ match e with EPool4 _ _ _ proto _ _ => proto = q | _ => False end
  | LBib q, IEntry e => fit_entry e /\ match e with EBib _ _ proto _ => proto = q | _ => False end
  | LSession _, ISession s => fit_session s
  | LGlobals, ISetting id v => fit_setting xt id v /\ (boolean_setting id -> v = VU8 0 \/ v = VU8 1)
  | _, _ => False
  end.
(** The listing's protocol is one octet. *)
Definition fit_listing (l : listing) : Prop := match l with LPool4 q | LBib q | LSession q => is_u8 q | _ => True end.

Section Spec.
Context {S I : Type} (K : kernel S I) (T : tables S I).

Definition plain {A} (g : A -> item) (r : errno + list A) : errno + list item := match r with inl e => inl e | inr l => inr (map g l) end.
(** The settings of a type of instance, by number; and those numbered above [off] *)
Definition setting_ids (xt : Z) : list Z :=
  if xt =? XT_SIIT then [1; 2; 3; 4; 5; 6; 7; 8; 9; 10; 11; 12; 13]
  else [1; 2; 3; 4; 5; 6; 7; 8; 14; 15; 16; 17; 18; 19; 20; 21; 22; 23; 24; 25; 26; 27; 28; 29; 30; 31; 32].
Definition setting_value (id : Z) (g : globals) : gval :=
  match id with
  | 2 => match pool6 g with C6 true (P6 a l) => VPrefix6 (Some l) (Some a) | _ => VPrefix6 (Some 0) None end
  | 12 => match p6791v6 g with C6 true (P6 a l) => VPrefix6 (Some l) (Some a) | _ => VPrefix6 (Some 0) None end
  | 13 => match p6791v4 g with C4 true (P4 a l) => VPrefix4 (Some l) (Some a) | _ => VPrefix4 (Some 0) None end
  | 8 => VPlateaus (firstn (Z.to_nat (count (plateaus g))) (values (plateaus g)))
  | 3 | 20 | 21 | 22 | 23 | 26 | 29 | 30 | 31 | 32 => VU32 (num g id)
  | _ => VU8 (num g id)
  end.
Definition settings_past (xt off : Z) (g : globals) : list item := map (fun id => ISetting id (setting_value id g)) (filter (fun id => off <? id) (setting_ids xt)).
(** What the table has left for someone who has been shown up to [last] *)
Definition rest_of (xt : Z) (l : listing) (i : I) (last : option item) (s : S) : errno + list item :=
  match l with
  | LEamt => plain (fun e => IEntry (EEam (fst e) (snd e))) (t_eamt T i (match last with Some (IEntry (EEam _ p4)) => Some p4 | _ => None end) s)
  | LDeny => plain (fun p => IEntry (EDeny p)) (t_deny T i (match last with Some (IEntry (EDeny p)) => Some p | _ => None end) s)
  | LPool4 q => plain IEntry (t_pool4 T i q (match last with Some (IEntry e) => Some e | _ => None end) s)
  | LBib q => plain IEntry (t_bib T i q (match last with Some (IEntry (EBib _ a4 _ _)) => Some a4 | _ => None end) s)
  | LSession q => plain (fun e => ISession (fst e)) (t_session T i q (match last with Some (ISession s) => Some (us_src4 s, us_dst4 s) | _ => None end) s)
  | LGlobals => inr (settings_past xt (match last with Some (ISetting id _) => id | _ => 0 end) (k_globals K i s))
  end.
(** ... in the instance of that name, if the client's type is the table's *)
Definition rest_in (xt : Z) (n : option name) (l : listing) (last : option item) (s : S) : errno + list item :=
  if negb (bit_and xt (listed_of l)) then inl EINVAL
  else match k_find K (name_of n) xt s with inl e => inl e | inr i => rest_of xt l i last s end.

(** One request after the other: each shows what fits in a message, from where the previous one stopped. It is an error if nothing fits. *)
Fixpoint shown (w : answering) (rest : option item -> S -> errno + list item) (last : option item) (states : list S) : list item * ending :=
  match states with
  | [] => ([], Pending)
  | s :: states =>
    match rest last s with
    | inl e => ([], Failed (told w (Err e)))
    | inr r =>
      let n := fits (a_cap w - 28) r in
      if (length r <=? n)%nat then (r, Complete)
      else match rev (firstn n r) with
           | [] => ([], Failed (told w (Err EINVAL)))
           | x :: _ => let (more, e) := shown w rest (Some x) states in (firstn n r ++ more, e)
           end
    end
  end.

(** What the client may say that it was shown last: nothing, or something that it was shown *)
Inductive may_say (rest : option item -> S -> errno + list item) (states : list S) : option item -> Prop :=
| say_nothing : may_say rest states None
| say_shown last s r x : may_say rest states last -> In s states -> rest last s = inr r -> In x r -> may_say rest states (Some x).
(** Everything that may be found in the tables during the listing is fit to be shown. *)
Definition fit_states (xt : Z) (n : option name) (l : listing) (states : list S) : Prop :=
  forall s last r, In s states -> may_say (rest_in xt n l) states last -> rest_in xt n l last s = inr r -> Forall (fit_item xt l) r.

(** The table does not change, and it can be resumed after any of its items. *)
Definition steady (rest : option item -> S -> errno + list item) (whole : list item) (states : list S) : Prop :=
  forall s, In s states -> rest None s = inr whole /\ forall a x b, whole = a ++ x :: b -> rest (Some x) s = inr b.
End Spec.
