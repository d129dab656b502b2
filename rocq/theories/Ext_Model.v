(** ICMP extensions (RFC 4884) in ICMP errors, and the trimming of errors.
    Sources: src/mod/common/rfc7915/common.c, src/mod/common/rfc7915/6to4.c, src/mod/common/rfc7915/4to6.c.
    size_t has 64 bits. Allocation failures (the packet is dropped) are left
    out. *)
Require Import Verif.Base Verif.Csum_Model Verif.Pkt_Model Verif.Hdr_Model.

(** A number converted to int *)
Definition i32 (x : Z) : Z := let y := u32 x in if y <? 2147483648 then y else y - 4294967296.

(** skb_copy_bits() (kernel) to a place with room for [room] octets. A negative
    length passes its check and ends in a memcpy() of nearly 4 GB. *)
Definition copy_bits (src : list Z) (off len room : Z) : xres (list Z) :=
  if len <? 0 then XUB
  else if Z.of_nat (length src) - len <? off then XDrop J_UNKNOWN
  else if room <? len then XUB
  else XOk (firstn (Z.to_nat len) (skipn (Z.to_nat off) src)).

(** src/mod/common/rfc7915/common.c:248-311 fix_ie. [ohl] is pkt_hdrs_len(out). (A new sk_buff with padding but
    no extension would have octets nobody wrote.) *)
Definition fix_ie (ohl : Z) (inp out : list Z) (in_ie_offset ipl pad iel : Z) : xres (list Z) :=
  let len := i32 (ohl + ipl + pad + iel) in
  if len <? 0 then XUB
  else
    let$ a := copy_bits out 0 (i32 ohl) len in
    let$ b := copy_bits out ohl (i32 ipl) (len - i32 ohl) in
    if iel =? 0 then (if pad =? 0 then XOk (a ++ b) else XUB)
    else
      let room := len - i32 ohl - i32 ipl in
      if (i32 pad <? 0) || (room <? i32 pad) then XUB
      else
        let$ c := copy_bits inp in_ie_offset (i32 iel) (room - i32 pad) in
        XOk (a ++ b ++ repeat 0 (Z.to_nat (i32 pad)) ++ c).

(** src/mod/common/rfc7915/common.c:337-405 handle_icmp_extension: the new args->ipl and outgoing packet. [hin] and
    [hout] are pkt_hdrs_len(in) and pkt_hdrs_len(out). *)
Definition handle_icmp_extension (max bits : Z) (force : bool) (ipl hin hout : Z) (inp out : list Z) : xres (Z * list Z) :=
  let li := Z.of_nat (length inp) in
  let lo := Z.of_nat (length out) in
  if ipl =? 0 then XOk (ipl, out)
  else
    let payload_len := u32 (li - hin) in
    if ipl =? payload_len then XOk (0, out)
    else if payload_len <? ipl then XDrop J_ICMPEXT_BIG
    else
      let in_ieo := u64 (hin + ipl) in
      let in_iel := u64 (li - in_ieo) in
      let max_iel := u64 (max - u32 (hout + 128)) in
      if force || (max_iel <? in_iel) then
        let out_ipl := u64 (Z.min (u64 (lo - in_iel)) max - hout) in
        let$ out := fix_ie hout inp out in_ieo out_ipl 0 0 in XOk (0, out)
      else
        let out_ipl := u64 (Z.min lo max - in_iel - hout) in
        let out_ipl := 2 ^ bits * (out_ipl / 2 ^ bits) in
        let out_pad := if out_ipl <? 128 then 128 - out_ipl else 0 in
        let$ out := fix_ie hout inp out in_ieo out_ipl out_pad in_iel in
        XOk ((out_ipl + out_pad) / 2 ^ bits, out).

(** src/mod/common/rfc7915/6to4.c:916-935 handle_icmp4_extension. The ICMPv6 header is at [l4] of [inp], the outgoing
    one at 20. *)
Definition handle_icmp4_extension (le : bool) (l4 : nat) (inp out : list Z) : xres (list Z) :=
  let$ r := handle_icmp_extension 576 2 false (8 * byte inp (l4 + 4)) (Z.of_nat l4 + 8) 28 inp out in
  let (ipl, out) := r in
  let out := put 25 [u8 ipl] out in
  XOk (update_total_length le out).
(** src/mod/common/rfc7915/6to4.c:944-961 trim_576 *)
Definition trim_576 (le : bool) (out : list Z) : list Z :=
  if (length out <=? 576)%nat then out else update_total_length le (firstn 576 out).

(** src/mod/common/rfc7915/4to6.c:1182-1203 should_remove_ie *)
Definition should_remove_ie (type code : Z) : bool :=
  ((type =? 3) && (code =? 2)) || ((type =? 3) && (code =? 4)) || (type =? 12).
(** src/mod/common/rfc7915/4to6.c:1205-1225 handle_icmp6_extension. The ICMPv4 header is at [l4] of [inp], the
    outgoing one at 40. *)
Definition handle_icmp6_extension (l4 : nat) (inp out : list Z) : xres (list Z) :=
  let$ r := handle_icmp_extension 1280 3 (should_remove_ie (byte inp l4) (byte inp (l4 + 1))) (4 * byte inp (l4 + 5))
              (Z.of_nat l4 + 8) 48 inp out in
  let (ipl, out) := r in
  let out := put 44 [u8 ipl] out in
  XOk (put 4 (octets 2 (u16 (Z.of_nat (length out) - 40))) out).
(** src/mod/common/rfc7915/4to6.c:1233-1253 trim_1280 *)
Definition trim_1280 (out : list Z) : list Z :=
  if (length out <=? 1280)%nat then out
  else
    let out := firstn 1280 out in
    put 4 (octets 2 (u16 (Z.of_nat (length out) - 40))) out.
