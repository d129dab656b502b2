(** What users should be told, independently of how texts are kept. *)
Require Import Verif.Base Verif.Addr_Model Verif.Rtrie_Model Verif.Pool4_Model Verif.Bib_Model Verif.Inst_Model Verif.Errpool_Model.

(** What is kept of something logged: its first 255 characters, if there is memory and it is not about a packet *)
Definition kept (packet mem mem' : bool) (text : list Z) : list Z := if packet || negb mem || negb mem' then [] else firstn 255 text.
(** The answers during a request: each is all that was logged since the one before ([said]), in order; or that there is no memory *)
Fixpoint answers_of (said : list Z) (l : list act) : list (errno + list Z) :=
  match l with
  | [] => []
  | Log packet mem mem' text :: l => answers_of (said ++ kept packet mem mem' text) l
  | Get true :: l => inr said :: answers_of [] l
  | Get false :: l => inl ENOMEM :: answers_of said l
  end.
(** Each request's answers are about itself alone. *)
Fixpoint answers_to (l : list item) : list (list (errno + list Z)) :=
  match l with [] => [] | Outside _ _ _ _ :: l => answers_to l | Request a :: l => answers_of [] a :: answers_to l end.
