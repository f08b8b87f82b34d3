(** Model of the texts of unpacking during the download: daemon/postprocess/DirectUnpack.cpp, which names start an archive (273-279, 549-558), reading the
    output of unrar (285-329) and what its lines mean (331-393). Messages for the user, progress labels and the list of extracted archives are not modelled. *)
From Coq Require Import String.
From Verif Require Import Base NumFmt WildModel CodecModel NzbModel RarSetModel InfoModel ScrModel DuModel.
Open Scope list_scope. Open Scope Z_scope.

(** The expression [.*\.part([0-9]+)\.rar$] without regard to case: the number of the volume. *)
Definition volume_number (n : list Z) : option (list Z) :=
  let m := (length n - 4)%nat in
  if (length n <? 4)%nat || negb (beqb (map lower (skipn m n)) (str ".rar")) then None
  else let stem := firstn m n in
       let d := rev (digits_back (rev stem)) in
       let k := (length stem - length d)%nat in
       if (length d =? 0)%nat || (k <? 5)%nat || negb (beqb (map lower (skipn (k - 5) (firstn k stem))) (str ".part")) then None
       else Some d.
(** DirectUnpack.cpp:273-279, [IsMainArchive]. *)
Definition main_archive (n : list Z) : bool :=
  ends_nocase n (str ".rar") && match volume_number n with Some d => atoi_u d =? 1 | None => true end.
(** DirectUnpack.cpp:549-558, [IsArchiveFilename]. *)
Definition archive_name (n : list Z) : bool :=
  ends_nocase n (str ".rar") ||
  match rev n with
  | b :: a :: l :: c :: _ => is_digit b && is_digit a && (114 <=? lower l) && (lower l <=? 122) && (c =? 46)
  | _ => false
  end.

Definition insert_text : list Z := str "Insert disk with".
Definition continue_text : list Z := str " [C]ontinue, [Q]uit ".
Definition contains (s p : list Z) : bool := match strstr s p with Some _ => true | None => false end.
(** The buffer after [acc] was written; behind a backspace nothing is written, so without any writing it has the text of the line before. *)
Definition buffer (prev acc : list Z) (bs : bool) : list Z := match acc with [] => if bs then prev else [] | _ => acc end.
(** DirectUnpack.cpp:290-316: at most [n] characters; the number of characters read, the buffer, the rest. *)
Fixpoint read_go (n : nat) (prev acc : list Z) (i : nat) (bs : bool) (inp : list Z) {struct n} : nat * list Z * list Z :=
  match n, inp with
  | O, _ | _, [] => (i, buffer prev acc bs, inp)
  | S n', ch :: r =>
    let bs := bs || (ch =? 8) in
    let acc := if bs then acc else acc ++ [ch] in
    let b := c_string (buffer prev acc bs) in
    if ch =? 10 then (S i, buffer prev acc bs, r)
    else if (35 <? i)%nat && (ch =? 32) && prefixb insert_text b && contains b continue_text then (S i, buffer prev acc bs, r)
    else read_go n' prev acc (S i) bs r
  end.
(** DirectUnpack.cpp:285-329, [ReadLine] with a buffer of 10240 bytes ([prev]: its text before): nothing, or the text and the rest of the output. *)
Definition read_line (prev inp : list Z) : option (list Z) * list Z :=
  let '(i, b, r) := read_go out_room prev [] 0 false inp in
  if (i =? 0)%nat then (None, r)
  else (Some (if prefixb (str "...") b then [] else c_string (firstn i b)), r).

Definition ends_with (s e : list Z) : bool := (length e <? length s)%nat && beqb (skipn (length s - length e) s) e.
(** DirectUnpack.cpp:376-388 *)
Definition fatal (t : list Z) : bool :=
  prefixb (str "Unrar: Checksum error in the encrypted fil") t ||
  prefixb (str "Unrar: CRC failed in the encrypted file") t ||
  prefixb (str "Unrar: The specified password is incorrect.") t ||
  contains t (str " : packed data CRC failed in volume") ||
  contains t (str " : packed data checksum error in volume") ||
  ends_with t (str " - CRC failed") || ends_with t (str " - checksum failed") ||
  prefixb (str "Unrar: WARNING: You need to start extraction from a previous volume") t.
(** DirectUnpack.cpp:331-393, [AddMessage]: what a message means; a text which ends unpacking is not looked at further
    (unpacking then fails anyhow). The name is cut at 1023 bytes; without room for it all the rest is taken (util/NString.cpp:33-39). *)
Definition meaning (t : list Z) : msg :=
  let stop_text := str " [C]ontinue, [Q]uit" in
  if prefixb (str "Unrar: Insert disk with") t && contains t stop_text then
    match strstr t stop_text with
    | Some r => let n := (length t - length r - 24)%nat in MAsk (cut (if (n =? 0)%nat then skipn 24 t else firstn n (skipn 24 t)))
    | None => MOther
    end
  else if fatal t then MFail
  else if prefixb (str "Unrar: All OK") t then MAllOk
  else MOther.
(** A line of unrar: Script.cpp:795-833, 861-878. *)
Definition heard_line (l : list Z) : option msg :=
  match process_output l with None => None | Some (_, t) => Some (meaning (message (Some (str "Unrar")) t)) end.
