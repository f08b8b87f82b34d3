(** Model of wildcard matching, tokenizing and command-line splitting,
    daemon/util/Util.cpp. Strings are the bytes before the NUL. *)
From Verif Require Import Base NumFmt.

(** C [tolower] in the "C" locale. *)
Definition lower (c : Z) : Z := if (65 <=? c) && (c <=? 90) then c + 32 else c.

(** ** WildMask *)

(** Groups (m_wildStart, m_wildLen), newest first; m_wildCount is the length. *)
Definition groups := list (Z * Z).

(** [ExpandArray] and the two stores after it: daemon/util/Util.cpp:1560-1565, 1589-1591. *)
Definition open_group (pos : Z) (gs : groups) : groups := (pos, 0) :: gs.
(** [m_wildLen[m_wildCount-1] = str - (text + m_wildStart[m_wildCount-1])]; [None]: index -1. *)
Definition close_group (pos : Z) (gs : groups) : option groups :=
  match gs with [] => None | (st, _) :: r => Some ((st, pos - st) :: r) end.

Definition is_q (p : Z) : bool := (p =? 63) || (p =? 35).
(** daemon/util/Util.cpp:1601-1602, 1654: '?' or '#' on a digit. *)
Definition q_match (p c : Z) : bool := (p =? 63) || ((p =? 35) && is_digit c).
Definition lit_match (p c : Z) : bool := lower p =? lower c.

Inductive wfirst :=
| WNo                                                         (* return false *)
| WRest (pat str : list Z) (pos : Z) (gs : groups) (qmark : bool)
| WUB.

Definition phd (pat : list Z) : Z := match pat with [] => 0 | p :: _ => p end.

(** daemon/util/Util.cpp:1585-1599: group bookkeeping of one iteration. *)
Definition wm_upd (wants : bool) (p pos : Z) (gs : groups) (qmark : bool) : option (groups * bool) :=
  if wants && is_q p then
    if negb qmark then Some (open_group pos gs, true) else Some (gs, qmark)
  else if wants && qmark then
    match close_group pos gs with Some g => Some (g, false) | None => None end
  else Some (gs, qmark).

(** daemon/util/Util.cpp:1583-1609, the loop before the first '*'. *)
Fixpoint wm_first (wants : bool) (str pat : list Z) (pos : Z) (gs : groups) (qmark : bool)
  {struct str} : wfirst :=
  match str with
  | [] => WRest pat str pos gs qmark
  | c :: s =>
    let p := phd pat in
    if p =? 42 then WRest pat str pos gs qmark
    else
      match wm_upd wants p pos gs qmark with
      | None => WUB
      | Some (gs1, qmark1) =>
        if negb (lit_match p c || q_match p c) then WNo
        else wm_first wants s (tl pat) (pos + 1) gs1 qmark1
      end
  end.

(** daemon/util/Util.cpp:1695-1698: skip trailing stars. *)
Fixpoint skip_stars (pat : list Z) : list Z :=
  match pat with
  | p :: r => if p =? 42 then skip_stars r else pat
  | [] => []
  end.

(** daemon/util/Util.cpp:1682-1700, after the second loop. *)
Definition wm_end (wants : bool) (pat : list Z) (pos : Z) (gs : groups) (qmark star : bool)
  : option (bool * groups) :=
  match (if wants && qmark then close_group pos gs else Some gs) with
  | None => None
  | Some gs1 =>
    let gs2 := if (phd pat =? 42) && wants && negb star then open_group pos gs1 else gs1 in
    Some (match skip_stars pat with [] => true | _ => false end, gs2)
  end.

(** daemon/util/Util.cpp:1617-1680, the second loop; [wpos], [spos] (with its offset
    [sposn]) are the restart positions. [None]: index -1 or fuel exhausted. *)
Fixpoint wm_loop (fuel : nat) (wants : bool) (pat str : list Z) (pos : Z)
  (wpos spos : list Z) (sposn : Z) (gs : groups) (qmark star : bool)
  {struct fuel} : option (bool * groups) :=
  match fuel with
  | O => None
  | S f =>
    match str with
    | [] => wm_end wants pat pos gs qmark star
    | c :: s =>
      let p := phd pat in
      if p =? 42 then
        match (if wants && qmark then close_group pos gs else Some gs) with
        | None => None
        | Some gs1 =>
          let qmark1 := if wants && qmark then false else qmark in
          let gs2 := if wants && negb star then open_group pos gs1 else gs1 in
          let star2 := if wants && negb star then true else star in
          match tl pat with
          | [] =>
            match (if wants && star2 then close_group (pos + Z.of_nat (length str)) gs2 else Some gs2) with
            | None => None
            | Some gs3 =>
              (* m_wildLen = strlen(str) *)
              let gs4 := if wants && star2 then
                           match gs3 with (st, _) :: r => (st, Z.of_nat (length str)) :: r | [] => [] end
                         else gs3 in
              Some (true, gs4)
            end
          | pat1 => wm_loop f wants pat1 str pos pat1 s (pos + 1) gs2 qmark1 star2
          end
        end
      else if q_match p c then
        let gs1 := if wants && negb qmark then open_group pos gs else gs in
        let qmark1 := if wants && negb qmark then true else qmark in
        wm_loop f wants (tl pat) s (pos + 1) wpos spos sposn gs1 qmark1 star
      else if lit_match p c then
        if wants && qmark then
          match close_group pos gs with
          | None => None
          | Some g => wm_loop f wants (tl pat) s (pos + 1) wpos spos sposn g false star
          end
        else if wants && star then
          match close_group pos gs with
          | None => None
          | Some g => wm_loop f wants (tl pat) s (pos + 1) wpos spos sposn g qmark false
          end
        else wm_loop f wants (tl pat) s (pos + 1) wpos spos sposn gs qmark star
      else
        let gs1 := if wants && qmark then tl gs else gs in
        let qmark1 := if wants && qmark then false else qmark in
        (* str = spos++; at the end of the text the old C code would step behind the
           NUL, but then the loop ends *)
        wm_loop f wants wpos spos sposn wpos (tl spos) (sposn + 1) gs1 qmark1 true
    end
  end.

(** Enough iterations for every run (see [wm_fuel] in WildProofs). *)
Definition wm_fuel (pat str : list Z) : nat :=
  S (length pat + (S (length str)) * (S (length str)) + S (length str)).

(** daemon/util/Util.cpp:1569-1701, [WildMask::Match]. Result: verdict and groups in order. *)
Definition wild_match (wants : bool) (mask text : list Z) : option (bool * groups) :=
  match wm_first wants text mask 0 [] false with
  | WNo => Some (false, [])
  | WUB => None
  | WRest pat str pos gs qmark =>
    match (if wants && qmark then close_group pos gs else Some gs) with
    | None => None
    | Some gs1 =>
      let qmark1 := if wants && qmark then false else qmark in
      match wm_loop (wm_fuel pat str) wants pat str pos text text 0 gs1 qmark1 false with
      | Some (b, g) => Some (b, rev g)
      | None => None
      end
    end
  end.

(** ** Tokenizer *)

Definition in_set (seps : list Z) (c : Z) : bool := existsb (Z.eqb c) seps.

(** C [strtok_r]: skip separators, then take characters up to the next separator. *)
Fixpoint skip_sep (seps s : list Z) : list Z :=
  match s with
  | c :: t => if in_set seps c then skip_sep seps t else s
  | [] => []
  end.
Fixpoint take_tok (seps s : list Z) : list Z * list Z :=
  match s with
  | c :: t => if in_set seps c then ([], t)
              else let '(a, r) := take_tok seps t in (c :: a, r)
  | [] => ([], [])
  end.
Definition strtok (seps s : list Z) : option (list Z * list Z) :=
  match skip_sep seps s with
  | [] => None
  | s1 => Some (take_tok seps s1)
  end.

(** daemon/util/Util.cpp:384-402, [Trim]. *)
Definition is_blank (c : Z) : bool := (c =? 10) || (c =? 13) || (c =? 32) || (c =? 9).
Fixpoint drop_blank (l : list Z) : list Z :=
  match l with c :: t => if is_blank c then drop_blank t else l | [] => [] end.
Definition trim (l : list Z) : list Z := drop_blank (rev (drop_blank (rev l))).

(** daemon/util/Util.cpp:1832-1847, [Tokenizer::Next] called until it returns nullptr.
    [None]: fuel exhausted. *)
Fixpoint tokens_go (fuel : nat) (seps s : list Z) : option (list (list Z)) :=
  match fuel with
  | O => None
  | S f =>
    match strtok seps s with
    | None => Some []
    | Some (tok, rest) =>
      match tokens_go f seps rest with
      | None => None
      | Some l => match trim tok with [] => Some l | t => Some (t :: l) end
      end
    end
  end.
Definition tokens (seps s : list Z) : option (list (list Z)) := tokens_go (S (length s)) seps s.

(** ** Command line *)

(** daemon/util/Util.cpp:316-382, [SplitCommandLine]: [buf] is the current argument
    reversed, [len] its length; buffer of 1024 bytes. *)
Definition sc_flush (space : bool) (buf : list Z) (len : Z) : list (list Z) * list Z * Z :=
  if space && (0 <? len) then ([rev buf], [], 0) else ([], buf, len).
Definition sc_add (c : Z) (buf : list Z) (len : Z) : list Z * Z :=
  if len <? 1023 then (c :: buf, len + 1) else (buf, len).

Fixpoint split_go (s : list Z) (buf : list Z) (len : Z) (escaping space : bool) {struct s} : list (list Z) :=
  match s with
  | [] => if 0 <? len then [rev buf] else []
  | c :: t =>
    if escaping then
      if c =? 39 then
        match t with
        | d :: t2 =>
          if (d =? 39) && (len <? 1023) then
            let '(o, b, n) := sc_flush space (39 :: buf) (len + 1) in o ++ split_go t2 b n true space
          else let '(o, b, n) := sc_flush true buf len in o ++ split_go t b n false true
        | [] => let '(o, b, n) := sc_flush true buf len in o ++ split_go t b n false true
        end
      else
        let '(b1, n1) := sc_add c buf len in
        let '(o, b, n) := sc_flush space b1 n1 in o ++ split_go t b n true space
    else if c =? 32 then
      let '(o, b, n) := sc_flush true buf len in o ++ split_go t b n false true
    else if (c =? 39) && space then
      let '(o, b, n) := sc_flush false buf len in o ++ split_go t b n true false
    else
      let '(b1, n1) := sc_add c buf len in
      let space1 := if len <? 1023 then false else space in
      let '(o, b, n) := sc_flush space1 b1 n1 in o ++ split_go t b n false space1
  end.
Definition split_cmd (s : list Z) : list (list Z) := split_go s [] 0 false true.
