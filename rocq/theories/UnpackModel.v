(** Unpacking: daemon/postprocess/Unpack.cpp. The runs of the external programs are inputs of the model (the lines
    they print, their exit codes and stops by the user), so is whether moving the extracted files succeeded.
    Not modelled: command lines, progress, the search for archives in the directory (its result is an input), and
    the deletion of archives after success. *)
From Coq Require Import String.
From Verif Require Import Base NumFmt LineModel WildModel.
Open Scope list_scope. Open Scope Z_scope.

(** daemon/queue/DownloadInfo.h:394-402, [EPostUnpackStatus]. *)
Definition usNone : Z := 0.
Definition usSkipped : Z := 1.
Definition usFailure : Z := 2.
Definition usSuccess : Z := 3.
Definition usSpace : Z := 4.
Definition usPassword : Z := 5.
(** DownloadInfo.h:376-384, [EParStatus]. *)
Definition psNone : Z := 0.
Definition psSkipped : Z := 1.
Definition psFailure : Z := 2.
Definition psSuccess : Z := 3.
Definition psRepairPossible : Z := 4.
Definition psManual : Z := 5.

(** ** The output of the unpacker *)

(** Members of [UnpackController] (Unpack.h): the result of the unpack, the errors found, whether the controller
    stopped the program itself ([m_autoTerminated]), [m_terminated] of [ScriptController], the stop flag of the
    thread, and whether the message about success has been seen. *)
Record us := mkU { u_ok : bool; u_start : bool; u_space : bool; u_dec : bool; u_pwd : bool;
                   u_auto : bool; u_term : bool; u_stop : bool; u_allok : bool }.
Definition us0 : us := mkU true false false false false false false false false.

(** strncmp(s, lit, n) == 0 for a literal of at least n characters; [s] is a text without zero bytes. *)
Definition same_n (n : nat) (s lit : list Z) : bool := prefixb (firstn n lit) s.

Definition contains (lit s : list Z) : bool := match strstr s lit with Some _ => true | None => false end.

Definition ends (lit s : list Z) : bool := beqb (skipn (length s - length lit) s) lit.

(** Line 898 compares characters before the start of the text (a BString on the stack) if 7-Zip prints a line of 19 to
    44 characters, also for its message about success. *)
Definition reads_outside (sz : bool) (t : list Z) : bool :=
  let len := Z.of_nat (length t) in sz && (18 <? len) && (len <? 45).
(** The outcome depends on them only if the text itself is an end of the message searched for; otherwise the
    comparison fails whatever is there. *)
Definition depends_outside (sz : bool) (t : list Z) : bool :=
  reads_outside sz t && ends t (str "Data Error in encrypted file. Wrong password?").
(** Unpack.cpp:884-921, [AddMessage] after the adjustment of the text for display; [sz]: 7-Zip instead of unrar.
    [None]: the outcome depends on memory outside of the text. The texts start with "Unrar: " or "7-Zip: "
    (Script.cpp:870-873), this is not used here. *)
Definition add_message (sz : bool) (t : list Z) (u : us) : option us :=
  let dec1 := if negb sz && (same_n 42 t (str "Unrar: Checksum error in the encrypted file") ||
                             same_n 39 t (str "Unrar: CRC failed in the encrypted file"))
              then true else u_dec u in
  let pwd := if negb sz && (same_n 43 t (str "Unrar: The specified password is incorrect.") ||
                            same_n 29 t (str "Unrar: Incorrect password for"))
             then true else u_pwd u in
  let len := Z.of_nat (length t) in
  if depends_outside sz t then None
  else
    let dec := if sz && (44 <? len) && ends (str "Data Error in encrypted file. Wrong password?") t
               then true else dec1 in
    let cancel := negb (u_stop u) &&
                  (dec || pwd || contains (str " : packed data CRC failed in volume") t ||
                   contains (str " : packed data checksum error in volume") t ||
                   ((13 <? len) && ends (str " - CRC failed") t) ||
                   ((18 <? len) && ends (str " - checksum failed") t) ||
                   same_n 67 t (str "Unrar: WARNING: You need to start extraction from a previous volume")) in
    let allok := if (negb sz && same_n 13 t (str "Unrar: All OK")) ||
                    (sz && same_n 23 t (str "7-Zip: Everything is Ok"))
                 then true else u_allok u in
    Some (mkU (u_ok u) (u_start u) (u_space u) dec pwd
              (u_auto u || cancel) (u_term u || cancel) (u_stop u || cancel) allok).

(** What happens while the program runs: a line of output, or the user stops the job (Unpack.cpp:923-928). *)
Inductive uev := Line (t : list Z) | Stop.
Definition u_event (sz : bool) (e : uev) (u : us) : option us :=
  match e with
  | Line t => add_message sz t u
  | Stop => Some (mkU (u_ok u) (u_start u) (u_space u) (u_dec u) (u_pwd u) (u_auto u) true true (u_allok u))
  end.
(** daemon/util/Script.cpp:366-386: output is processed until the program is terminated. *)
Fixpoint u_events (sz : bool) (es : list uev) (u : us) : option us :=
  match es with
  | [] => Some u
  | e :: r => if u_term u then Some u
              else match u_event sz e u with Some u' => u_events sz r u' | None => None end
  end.

(** One run: whether a command line could be built, the events and the exit code (-1: not started). *)
Record run := mkRun { r_cmd : bool; r_events : list uev; r_code : Z }.

(** Unpack.cpp:260-316, [ExecuteUnrar], 318-369, [ExecuteSevenZip], 371-391, [PrepareCmdParams]. *)
Definition execute (sz : bool) (r : run) (u : us) : option us :=
  if negb (r_cmd r) then
    Some (mkU false true (u_space u) (u_dec u) (u_pwd u) (u_auto u) (u_term u) (u_stop u) (u_allok u))
  else
    match u_events sz (r_events r)
            (mkU (u_ok u) (u_start u) (u_space u) (u_dec u) (u_pwd u) (u_auto u) (u_term u) (u_stop u) false) with
    | None => None
    | Some v =>
      Some (mkU ((r_code r =? 0) && u_allok v && negb (u_term v))
                ((r_code r =? -1) && negb (u_auto v))
                (if sz then u_space v else r_code r =? 5)
                (u_dec v)
                (u_pwd v || (negb sz && (r_code r =? 11)))
                (u_auto v) (u_term v) (u_stop v) (u_allok v))
    end.

(** ** Passwords *)

(** Unpack.cpp:223-224: carriage returns and line feeds at the end are removed. *)
Definition trim_crlf (s : list Z) : list Z :=
  rev ((fix go l := match l with
                    | c :: r => if (c =? 10) || (c =? 13) then go r else l
                    | [] => []
                    end) (rev s)).
(** The lines of the password file as read with a buffer of 511 bytes; [fuel]: number of bytes in the file. *)
Fixpoint pass_lines (fuel : nat) (f : list Z) : list (list Z) :=
  match fuel with
  | O => []
  | S k => match fgets 511 f with
           | None => []
           | Some (raw, rest) => trim_crlf (cstr raw) :: pass_lines k rest
           end
  end.
(** The file is opened before the loop; [None]: it could not be opened. *)
Definition passwords (file : option (list Z)) : option (list (list Z)) :=
  option_map (fun f => pass_lines (length f) f) file.

Definition wrong_password (u : us) : bool :=
  negb (u_ok u) && negb (u_start u) && negb (u_space u) && (u_dec u || u_pwd u).

(** Unpack.cpp:226-237: one password of the list. *)
Definition try_password (sz : bool) (r : run) (u : us) : option us :=
  let resume := u_stop u && u_auto u in
  execute sz r (mkU (u_ok u) (u_start u) (u_space u) false false false
                    (if resume then false else u_term u) (if resume then false else u_stop u) (u_allok u)).

(** Unpack.cpp:217-239, the loop. [runs n]: the n-th run of the unpacker. Result: the state, the passwords tried,
    the number of the next run. *)
Fixpoint try_list (sz : bool) (runs : nat -> run) (ps : list (list Z)) (n : nat) (u : us)
  : option (us * list (list Z) * nat) :=
  match ps with
  | [] => Some (u, [], n)
  | p :: r =>
    if wrong_password u then
      match p with
      | [] => try_list sz runs r n u
      | _ => match try_password sz (runs n) u with
             | None => None
             | Some u' =>
               match try_list sz runs r (S n) u' with
               | Some (v, tried, m) => Some (v, p :: tried, m)
               | None => None
               end
             end
      end
    else Some (u, [], n)
  end.

(** What the job has to start with: the flags of [PostInfo] (DownloadInfo.h:826-830), the status of the par-check,
    whether par2-files are in the directory, the password of the download, the option UnpackPassFile ([None]: empty)
    with the content of the file, and whether the last par-check was a full one. *)
Record uin := mkIn { i_tried : bool; i_repaired : bool; i_passtried : bool; i_last : Z; i_par : Z; i_haspars : bool;
                     i_password : list Z; i_passfile : option (option (list Z)); i_parfull : bool }.

(** Unpack.cpp:186-244, [UnpackArchives]; the flag: [m_passListTried] after it. *)
Definition unpack_archives (sz : bool) (i : uin) (runs : nat -> run) (n : nat) (u : us) (listed : bool)
  : option (us * list (list Z) * nat * bool) :=
  let first :=
    if negb (i_tried i) || i_repaired i then
      match execute sz (runs n) u with
      | None => None
      | Some v => Some (v, [i_password i], S n,
                        negb (u_ok v) && i_haspars i && negb (u_pwd v) && (i_par i <=? psSkipped))
      end
    else Some (mkU false (u_start u) (u_space u) (i_last i =? usPassword) (u_pwd u) (u_auto u) (u_term u) (u_stop u)
                   (u_allok u), [], n, false) in
  match first with
  | None => None
  | Some (v, tried, m, true) => Some (v, tried, m, listed)
  | Some (v, tried, m, false) =>
    match i_passfile i with
    | Some file =>
      if wrong_password v && (negb (u_term v) || u_auto v) && (match i_password i with [] => true | _ => false end)
      then
        match passwords file with
        | None => Some (v, tried, m, listed)
        | Some ps =>
          match try_list sz runs ps m v with
          | None => None
          | Some (w, tried', m') => Some (w, tried ++ tried', m', negb (u_stop w) || u_auto w)
          end
        end
      else Some (v, tried, m, listed)
    | None => Some (v, tried, m, listed)
    end
  end.

(** ** The job *)

(** What is found in the directory: rar-files not yet unpacked, 7z-files, 7z-files in parts, split files with the
    result of joining them, files that look like renamed archives; whether the extracted files could be moved. *)
Record found := mkF { f_rar : bool; f_rar_todo : bool; f_7z : bool; f_7zmulti : bool; f_split : bool; f_joined : bool;
                      f_renamed : bool; f_moved : bool; f_wanted : bool; f_prenamed : bool }.

Inductive ures := UStatus (s : Z) | URequest (force : bool) (passtried : bool) (last : Z).

Definition fail_status (u : us) : Z :=
  if u_space u then usSpace else if u_pwd u || u_dec u then usPassword else usFailure.

(** Unpack.cpp:545-584, [Completed], 587-597, [RequestParCheck]. *)
Definition completed (i : uin) (f : found) (u : us) (listed : bool) : ures :=
  if u_ok u && f_moved f then UStatus usSuccess
  else if negb (u_ok u) && ((i_par i <=? psSkipped) || negb (i_parfull i)) &&
          negb (u_start u) && negb (u_space u) && negb (u_pwd u) && (negb (u_term u) || u_auto u) && i_haspars i
  then URequest (match i_password i with [] => false | _ => true end ||
                 match i_passfile i with None => true | _ => false end || listed ||
                 negb (u_dec u || u_pwd u) || (psSkipped <? i_par i))
                listed (fail_status u)
  else UStatus (fail_status u).

(** One step of the job, lines 104-144. *)
Definition step_if (c : bool) (sz : bool) (i : uin) (runs : nat -> run)
  (a : option (us * list (list Z) * nat * bool)) : option (us * list (list Z) * nat * bool) :=
  match a with
  | None => None
  | Some (u, tried, n, listed) =>
    if c then match unpack_archives sz i runs n u listed with
              | None => None
              | Some (v, tried', m, listed') => Some (v, tried ++ tried', m, listed')
              end
    else a
  end.
Definition when_ok (a : option (us * list (list Z) * nat * bool)) : bool :=
  match a with Some (u, _, _, _) => u_ok u | None => false end.

(** Unpack.cpp:50-184, [Run]: the result and the passwords tried. *)
Definition unpack_run (i : uin) (f : found) (runs : nat -> run) : option (ures * list (list Z)) :=
  if i_tried i && negb (i_repaired i) &&
     (match i_password i with [] => false | _ => true end ||
      match i_passfile i with None => true | _ => false end || i_passtried i)
  then Some (UStatus (i_last i), [])
  else if f_wanted f && (f_rar f || f_7z f || f_7zmulti f || f_split f) then
    let a0 := Some (us0, [], O, false) in
    let a1 := step_if (f_rar f && f_rar_todo f) false i runs a0 in
    let a2 := step_if (f_7z f && when_ok a1) true i runs a1 in
    let a3 := step_if (f_7zmulti f && when_ok a2) true i runs a2 in
    match a3 with
    | None => None
    | Some (u, tried, _, listed) =>
      let u' := if f_split f && u_ok u && negb (f_joined f)
                then mkU false (u_start u) (u_space u) (u_dec u) (u_pwd u) (u_auto u) (u_term u) (u_stop u) (u_allok u)
                else u in
      Some (completed i f u' listed, tried)
    end
  else if f_wanted f then
    if (i_par i <=? psSkipped) && negb (f_prenamed f) && i_haspars i then Some (URequest false false usFailure, [])
    else if f_renamed f then Some (UStatus usFailure, [])
    else Some (UStatus usSkipped, [])
  else Some (UStatus usSkipped, []).

(** ** Joining split files *)

(** A directory: the names and contents of its files. *)
Notation dirl := (list (list Z * list Z)).

Definition alnum_comma (c : Z) : bool :=
  ((97 <=? c) && (c <=? 122)) || ((65 <=? c) && (c <=? 90)) || ((48 <=? c) && (c <=? 57)) || (c =? 44).
Definition digit (c : Z) : bool := (48 <=? c) && (c <=? 57).
(** The regular expression of line 442, without regard to case: the name without the last extension and the number. *)
Definition split_name (s : list Z) : option (list Z * Z) :=
  match rev s with
  | d3 :: d2 :: d1 :: p2 :: c3 :: c2 :: c1 :: p1 :: r =>
    if digit d1 && digit d2 && digit d3 && (p2 =? 46) && alnum_comma c1 && alnum_comma c2 && alnum_comma c3 && (p1 =? 46)
    then Some (rev r ++ [p1; c1; c2; c3], 100 * (d1 - 48) + 10 * (d2 - 48) + (d3 - 48))
    else None
  | _ => None
  end.

Fixpoint find_file (name : list Z) (d : dirl) : option (list Z) :=
  match d with
  | [] => None
  | (n, c) :: r => if beqb n name then Some c else find_file name r
  end.

Definition pad3 (n : Z) : list Z :=
  if n <? 10 then [48; 48] ++ zdec n else if n <? 100 then [48] ++ zdec n else zdec n.
Definition part_name (base : list Z) (n : Z) : list Z := base ++ [46] ++ pad3 n.

(** Unpack.cpp:443-469: number of parts, lowest and highest number, the lowest number of a part with another size
    than the first one, and the size of the last such part in the order of the directory. *)
Record jst := mkJ { j_count : Z; j_min : Z; j_max : Z; j_difmin : Z; j_difsize : Z }.
Definition jst0 : jst := mkJ 0 (-1) (-1) 999999 0.
Definition j_step (first : Z) (s : jst) (e : list Z * list Z) : jst :=
  match split_name (fst e) with
  | None => s
  | Some (_, n) =>
    let size := Z.of_nat (length (snd e)) in
    let dif := negb (size =? first) in
    mkJ (j_count s + 1)
        (if (n <? j_min s) || (j_min s =? -1) then n else j_min s)
        (if j_max s <? n then n else j_max s)
        (if dif then (if n <? j_difmin s then n else j_difmin s) else j_difmin s)
        (if dif then size else j_difsize s)
  end.

(** Unpack.cpp:504-538: the parts are written one after another until one does not exist; [total] is the divisor
    of the progress (line 524), [None]: division by zero. *)
Fixpoint join_loop (k : nat) (d : dirl) (base : list Z) (i total : Z) : option (list Z) :=
  match k with
  | O => Some []
  | S k' =>
    match find_file (part_name base i) d with
    | None => Some []
    | Some c => if total =? 0 then None
                else option_map (fun r => c ++ r) (join_loop k' d base (i + 1) total)
    end
  end.

(** Unpack.cpp:424-543, [JoinFile] for the name of a first part; [Some None]: refused. *)
Definition join_file (parok : bool) (d : dirl) (frag : list Z) : option (option (list Z)) :=
  let base := firstn (length frag - 4) frag in
  let first := match find_file frag d with Some c => Z.of_nat (length c) | None => -1 end in
  let s := fold_left (j_step first) d jst0 in
  let corrected := j_count s - (if j_min s =? 0 then 1 else 0) in
  if (1 <? j_min s) || negb (corrected =? j_max s) ||
     ((negb (j_difmin s =? corrected) || (j_max s <? j_difmin s)) && negb parok)
  then Some None
  else option_map Some (join_loop (Z.to_nat (j_max s - j_min s + 1)) d base (j_min s)
                                  (first * (j_count s - 1) + j_difsize s)).
