(** What the text buffers promise, without their memory. *)
From Verif Require Import Base BufModel.
Open Scope list_scope. Open Scope Z_scope.

(** A text: no terminator inside. *)
Definition is_text (t : list Z) : Prop := Forall (fun c => 0 < c < 256) t.

(** What a source pointer with a length stands for: a terminated string (cut to the length,
    a length of 0 meaning all of it), or that many bytes without terminator. *)
Definition denotes (src : list Z) (len : Z) (t : list Z) : Prop :=
  (0 <= len /\ exists s j, src = s ++ 0 :: j /\ is_text s /\ t = (if len =? 0 then s else firstn (Z.to_nat len) s)) \/
  (0 < len /\ is_text t /\ zlen t = len /\ exists j, src = t ++ j).
(** The same, when the length is not more than there is. *)
Definition denotes_exactly (src : list Z) (len : Z) (t : list Z) : Prop :=
  denotes src len t /\ (len = 0 \/ zlen t = len).

(** The text a sequence of operations stands for, when nothing is cut. *)
Inductive text_after : list Z -> list bufop -> list Z -> Prop :=
| ta_nil t : text_after t [] t
| ta_set t src len s r e : denotes src len s -> text_after s r e -> text_after t (OSet src len :: r) e
| ta_append t src len s r e : denotes src len s -> text_after (t ++ s) r e -> text_after t (OAppend src len :: r) e
| ta_format t s r e : is_text s -> text_after s r e -> text_after t (OFormat s :: r) e
| ta_append_fmt t s r e : is_text s -> text_after (t ++ s) r e -> text_after t (OAppendFmt s :: r) e
| ta_clear t r e : text_after [] r e -> text_after t (OClear :: r) e.

(** The text without blanks at its end. *)
Definition blank_char (c : Z) : Prop := c = 10 \/ c = 13 \/ c = 32 \/ c = 9.
Definition trimmed (s t : list Z) : Prop :=
  (exists b, s = t ++ b /\ Forall blank_char b) /\ (t = [] \/ exists u c, t = u ++ [c] /\ ~ blank_char c).

Inductive ctext_after : list Z -> list csop -> list Z -> Prop :=
| ca_nil t : ctext_after t [] t
| ca_set t src len s r e : denotes src len s -> ctext_after s r e -> ctext_after t (CSet src len :: r) e
| ca_null t r e : ctext_after [] r e -> ctext_after t (CNull :: r) e
| ca_append t src len s r e : denotes src len s -> ctext_after (t ++ s) r e -> ctext_after t (CAppend src len :: r) e
| ca_format t s r e : is_text s -> ctext_after s r e -> ctext_after t (CFormat s :: r) e
| ca_append_fmt t s r e : is_text s -> ctext_after (t ++ s) r e -> ctext_after t (CAppendFmt s :: r) e
| ca_reserve t cap r e : 0 <= cap -> ctext_after t r e -> ctext_after t (CReserve cap :: r) e
| ca_trim t s r e : trimmed t s -> ctext_after s r e -> ctext_after t (CTrim :: r) e
(** a part [b] of the text, if there is any text, is replaced by the source *)
| ca_replace a b c src s j n r e : src = s ++ 0 :: j -> is_text s -> 0 <= n -> a ++ b ++ c <> [] ->
    ctext_after (a ++ (if n =? 0 then s else firstn (Z.to_nat n) s) ++ c) r e ->
    ctext_after (a ++ b ++ c) (CReplace (zlen a) (zlen b) src n :: r) e.

Inductive stext_after : list Z -> list sbop -> list Z -> Prop :=
| sa_nil t : stext_after t [] t
| sa_append t src len s r e : denotes_exactly src len s -> stext_after (t ++ s) r e -> stext_after t (SAppend src len :: r) e
| sa_append_fmt t s r e : is_text s -> stext_after (t ++ s) r e -> stext_after t (SAppendFmt s :: r) e
| sa_reserve t cap x r e : 0 <= cap -> stext_after t r e -> stext_after t (SReserve cap x :: r) e
| sa_clear t r e : stext_after [] r e -> stext_after t (SClear :: r) e.

(** Every occurrence of [from], from left to right and not overlapping, replaced by [to]. *)
Definition leftmost (from a b : list Z) : Prop :=
  forall a' b', a ++ from ++ b = a' ++ from ++ b' -> (length a <= length a')%nat.
Inductive replaced (from to : list Z) : list Z -> list Z -> Prop :=
| rep_none s : (forall a b, s <> a ++ from ++ b) -> replaced from to s s
| rep_step a b b' : leftmost from a b -> replaced from to b b' -> replaced from to (a ++ from ++ b) (a ++ to ++ b').
