(** How parameters of remote procedures are written, and what they mean; independent of how they are read. *)
From Coq Require Import String.
From Verif Require Import Base NumFmt CodecSpec CodecProofs2 RpModel.
Open Scope list_scope. Open Scope Z_scope.

(** A text is given by what stands between its quotes or tags. *)
Inductive value := VInt (z : Z) | VStr (raw : list Z) | VBool (b : bool).
Definition bool_text (json b : bool) : list Z := if json then if b then str "true" else str "false" else if b then str "1" else str "0".
Definition body (ts : list jtok) : list Z := concat (map jtok_text ts).
Definition element (tag inner : list Z) : list Z := 60 :: tag ++ 62 :: inner ++ 60 :: 47 :: tag ++ [62].
(** [writes f v t]: [t] is a way to write [v]. *)
Definition writes (f : form) (v : value) (t : list Z) : Prop :=
  match v with
  | VInt z => - 2 ^ 31 <= z < 2 ^ 31 /\
              match f with FXml => t = element (str "i4") (zdec z) \/ t = element (str "int") (zdec z) | _ => t = zdec z end
  | VBool b => match f with FXml => t = element (str "boolean") (bool_text false b) | _ => t = bool_text (is_json f) b end
  | VStr raw => match f with
                | FGet _ => ~ In 38 raw /\ t = raw
                | FJson => exists ts, Forall jtok_ok ts /\ no_adjacent ts /\ raw = body ts /\ t = 34 :: raw ++ [34]
                | FXml => ~ In 60 raw /\ t = element (str "string") raw
                end
  end.

(** Text without a value in it. *)
Definition novalue (t : list Z) : Prop := strstr t (str "<value>") = None /\ strstr t (str "<value/>") = None.
Definition stops (f : form) (t : list Z) : Prop :=
  match f with
  | FGet _ => ~ In 61 t
  | FJson => exists ws r, Forall before_value ws /\ t = ws ++ r /\ (r = [] \/ exists c r', r = c :: r' /\ (c = 93 \/ c = 125))
  | FXml => novalue t
  end.
Definition is_get (f : form) : bool := match f with FGet _ => true | _ => false end.
(** What may stand behind a value in JSON: a text may be the name of the next value. *)
Definition follows (v : value) (c : Z) : Prop := after_value c \/ (c = 58 /\ match v with VStr _ => True | _ => False end).
(** The values written one after another: in JSON with a comma, a bracket or a blank behind each (or a colon) and whatever may stand before a value before it; in XML each
    in a value-element; in an address as "name=value" with "&" between. [e]: no other value may follow. *)
Inductive written (f : form) (e : bool) : list value -> list Z -> Prop :=
| w_nil t : (e = true -> stops f t) -> written f e [] t
| w_json v vs t ws c r : f = FJson -> Forall before_value ws -> writes f v t -> follows v c -> written f e vs r -> written f e (v :: vs) (ws ++ t ++ c :: r)
| w_xml v vs t n r : f = FXml -> novalue n -> writes f v t -> written f e vs r -> written f e (v :: vs) (n ++ element (str "value") t ++ r)
| w_get v vs t n r : is_get f = true -> ~ In 61 n -> writes f v t -> written f e vs r -> written f e (v :: vs) (n ++ 61 :: t ++ 38 :: r)
| w_last v t n : is_get f = true -> ~ In 61 n -> writes f v t -> written f e [v] (n ++ 61 :: t).

(** The text of the parameters in a request: in JSON behind the first "params" with its quotes. *)
Definition params_text (f : form) (req t : list Z) : Prop :=
  match f with FJson => strstr req (str """params""") = Some (str """params""" ++ t) | _ => req = t end.

(** What the text between quotes or tags means. *)
Fixpoint jmeaning (ts : list jtok) : option (list Z) :=
  match ts with
  | [] => Some []
  | JPlain c :: r => match jmeaning r with Some m => Some (c :: m) | None => None end
  | JEsc c :: r => match json_esc c, jmeaning r with Some x, Some m => Some (x :: m) | _, _ => None end
  end.
Inductive xtok := XPlain (c : Z) | XName (name : list Z) (c : Z).
Definition xtok_ok (x : xtok) : Prop :=
  match x with
  | XPlain c => c <> 38
  | XName n c => In (n, c) [(str "lt", 60); (str "gt", 62); (str "amp", 38); (str "apos", 39); (str "quot", 34)]
  end.
Definition xtok_text (x : xtok) : list Z := match x with XPlain c => [c] | XName n _ => 38 :: n ++ [59] end.
Definition xtok_char (x : xtok) : Z := match x with XPlain c => c | XName _ c => c end.
Definition means (f : form) (raw m : list Z) : Prop :=
  if is_json f then exists ts, Forall jtok_ok ts /\ raw = body ts /\ jmeaning ts = Some m
  else exists xs, Forall xtok_ok xs /\ raw = concat (map xtok_text xs) /\ m = map xtok_char xs.

(** The numbers of the commands of editqueue (daemon/queue/DownloadInfo.h:954-1007). *)
Definition edit_numbers : list (string * Z) :=
  [("FileMoveOffset", 1); ("FileMoveTop", 2); ("FileMoveBottom", 3); ("FilePause", 4); ("FileResume", 5); ("FileDelete", 6); ("FilePauseAllPars", 7);
   ("FilePauseExtraPars", 8); ("FileReorder", 9); ("FileSplit", 10); ("GroupMoveOffset", 11); ("GroupMoveTop", 12); ("GroupMoveBottom", 13);
   ("GroupMoveBefore", 14); ("GroupMoveAfter", 15); ("GroupPause", 16); ("GroupResume", 17); ("GroupDelete", 18); ("GroupParkDelete", 19);
   ("GroupDupeDelete", 20); ("GroupFinalDelete", 21); ("GroupPauseAllPars", 22); ("GroupPauseExtraPars", 23); ("GroupSetPriority", 24);
   ("GroupSetCategory", 25); ("GroupApplyCategory", 26); ("GroupMerge", 27); ("GroupSetParameter", 28); ("GroupSetName", 29); ("GroupSetDupeKey", 30);
   ("GroupSetDupeScore", 31); ("GroupSetDupeMode", 32); ("GroupSort", 33); ("GroupSortFiles", 34); ("PostDelete", 35); ("HistoryDelete", 36);
   ("HistoryFinalDelete", 37); ("HistoryReturn", 38); ("HistoryProcess", 39); ("HistoryRedownload", 40); ("HistoryRetryFailed", 41);
   ("HistorySetParameter", 42); ("HistorySetDupeKey", 43); ("HistorySetDupeScore", 44); ("HistorySetDupeMode", 45); ("HistorySetDupeBackup", 46);
   ("HistoryMarkBad", 47); ("HistoryMarkGood", 48); ("HistoryMarkSuccess", 49); ("HistorySetCategory", 50); ("HistorySetName", 51)]%string.
Definition like (a b : list Z) : Prop := map WildModel.lower a = map WildModel.lower b.

(** What is added to the queue: the address, or the data given in Base64. *)
Definition is_url (c : list Z) : Prop := exists p r, c = p ++ r /\ (like p (str "http://") \/ like p (str "https://")).
Definition content_means (c d : list Z) : Prop := (is_url c /\ d = c) \/ (~ is_url c /\ bytes_ok d /\ filter CodecModel.b64_char c = base64 d).
Definition mode_name (m : dmode) : list Z := match m with DScore => str "score" | DAll => str "all" | DForce => str "force" end.

(** Any sequence of reading parameters. *)
Inductive kind := KInt | KStr | KBool.
Definition next (k : kind) (f : form) (a : option (list Z)) : option (option (list Z)) :=
  match k with
  | KInt => match next_int f a with Undef => None | Res _ p => Some p end
  | KStr => match next_str f a with Undef => None | Res _ p => Some p end
  | KBool => match next_bool f a with Undef => None | Res _ p => Some p end
  end.
(** [None]: memory behind the text was read. *)
Fixpoint reads (ks : list kind) (f : form) (a : option (list Z)) : option (option (list Z)) :=
  match ks with [] => Some a | k :: r => match next k f a with None => None | Some p => reads r f p end end.

(** Servers with their states, parameters with their values, one after another. *)
Fixpoint server_values (l : list (Z * bool)) : list value := match l with [] => [] | (i, b) :: r => VInt i :: VBool b :: server_values r end.
Fixpoint pair_values (l : list (list Z * list Z)) : list value := match l with [] => [] | (n, v) :: r => VStr n :: VStr v :: pair_values r end.
