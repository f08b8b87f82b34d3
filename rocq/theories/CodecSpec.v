(** Independent descriptions of UTF-8, XML text, JSON strings and Base64. *)
From Coq Require Import String.
From Verif Require Import Base NumFmt.

(** UTF-8 (RFC 3629). *)
Definition scalar (cp : Z) : Prop := 0 < cp < 0x110000 /\ ~ (0xD800 <= cp < 0xE000).
Definition utf8 (cp : Z) : list Z :=
  if cp <? 0x80 then [cp]
  else if cp <? 0x800 then [0xC0 + cp / 64; 0x80 + cp mod 64]
  else if cp <? 0x10000 then [0xE0 + cp / 4096; 0x80 + cp / 64 mod 64; 0x80 + cp mod 64]
  else [0xF0 + cp / 262144; 0x80 + cp / 4096 mod 64; 0x80 + cp / 64 mod 64; 0x80 + cp mod 64].
Definition utf8s (cps : list Z) : list Z := concat (map utf8 cps).

(** Number written with hexadecimal digits only. *)
Definition hexnum (ds : list Z) : option Z :=
  match ds with
  | [] => None
  | _ => fold_left (fun a d => match a, hexval d with Some x, Some v => Some (x * 16 + v) | _, _ => None end)
                   ds (Some 0)
  end.

Fixpoint upto_semi (l : list Z) : option (list Z * list Z) :=
  match l with
  | [] => None
  | c :: t => if c =? 59 then Some ([], t)
              else match upto_semi t with Some (a, b) => Some (c :: a, b) | None => None end
  end.

(** Meaning of "&name;". *)
Definition entity (name : list Z) : option Z :=
  if beqb name (str "lt") then Some 60
  else if beqb name (str "gt") then Some 62
  else if beqb name (str "amp") then Some 38
  else if beqb name (str "apos") then Some 39
  else if beqb name (str "quot") then Some 34
  else match name with
       | a :: b :: ds => if (a =? 35) && (b =? 120) then hexnum ds else None
       | _ => None
       end.

(** A strict reader of XML character data restricted to printable ASCII: no raw
    markup or quote characters, no control characters, every '&' begins a known
    entity. The result are code points. *)
Fixpoint xml_parse (fuel : nat) (l : list Z) : option (list Z) :=
  match fuel with
  | O => None
  | S f =>
    match l with
    | [] => Some []
    | c :: t =>
      if c =? 38 then
        match upto_semi t with
        | Some (name, rest) =>
          match entity name, xml_parse f rest with Some v, Some r => Some (v :: r) | _, _ => None end
        | None => None
        end
      else if (c <? 32) || (127 <? c) || (c =? 60) || (c =? 62) || (c =? 34) || (c =? 39) then None
      else match xml_parse f t with Some r => Some (c :: r) | None => None end
    end
  end.

(** A strict reader of the body of a JSON string (RFC 8259) restricted to ASCII. *)
Definition json_esc (c : Z) : option Z :=
  if c =? 34 then Some 34 else if c =? 92 then Some 92 else if c =? 47 then Some 47
  else if c =? 98 then Some 8 else if c =? 102 then Some 12 else if c =? 110 then Some 10
  else if c =? 114 then Some 13 else if c =? 116 then Some 9 else None.

Fixpoint json_parse (fuel : nat) (l : list Z) : option (list Z) :=
  match fuel with
  | O => None
  | S f =>
    match l with
    | [] => Some []
    | c :: t =>
      if c =? 92 then
        match t with
        | [] => None
        | e :: u =>
          if e =? 117 then
            match u with
            | a :: b :: d :: h :: v =>
              match hexnum [a; b; d; h], json_parse f v with
              | Some x, Some r => Some (x :: r) | _, _ => None end
            | _ => None
            end
          else match json_esc e, json_parse f u with Some x, Some r => Some (x :: r) | _, _ => None end
        end
      else if (c <? 32) || (127 <? c) || (c =? 34) then None
      else match json_parse f t with Some r => Some (c :: r) | None => None end
    end
  end.

(** Standard Base64 (RFC 4648). *)
Definition b64_alphabet : list Z :=
  str "ABCDEFGHIJKLMNOPQRSTUVWXYZabcdefghijklmnopqrstuvwxyz0123456789+/".
Definition b64_digit (v : Z) : Z := nth (Z.to_nat v) b64_alphabet 0.

Fixpoint base64 (l : list Z) : list Z :=
  match l with
  | [] => []
  | [a] => [b64_digit (a / 4); b64_digit (a mod 4 * 16); 61; 61]
  | [a; b] => [b64_digit (a / 4); b64_digit (a mod 4 * 16 + b / 16); b64_digit (b mod 16 * 4); 61]
  | a :: b :: c :: t =>
    b64_digit (a / 4) :: b64_digit (a mod 4 * 16 + b / 16) :: b64_digit (b mod 16 * 4 + c / 64)
    :: b64_digit (c mod 64) :: base64 t
  end.

(** JSON string tokens: plain characters and two-character escapes. *)
Inductive jtok := JPlain (c : Z) | JEsc (c : Z).
Definition jtok_ok (t : jtok) : Prop :=
  match t with
  | JPlain c => c <> 34 /\ c <> 92 /\ c <> 0
  | JEsc c => c <> 0
  end.
Definition jtok_text (t : jtok) : list Z := match t with JPlain c => [c] | JEsc c => [92; c] end.
Definition jstring (ts : list jtok) : list Z := 34 :: concat (map jtok_text ts) ++ [34].

(** What may stand before a JSON value, and what ends a number, a name or a literal. *)
Definition before_value (c : Z) : Prop := In c [32; 44; 91; 123; 58; 13; 10; 9; 12].   (* blank , [ { : CR LF TAB FF *)
Definition after_value (c : Z) : Prop := In c [32; 44; 93; 125; 13; 10; 9; 12].        (* blank , ] } CR LF TAB FF *)
