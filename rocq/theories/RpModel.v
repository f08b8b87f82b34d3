(** Model of the parameters of remote procedures: daemon/remote/XmlRpc.cpp, class XmlCommand (850-1054, 1080-1093) and the commands reading many of them:
    rate, scheduleresume, editqueue, append, writelog, editserver. The text of the request is the string behind m_requestPtr; texts given back are cut off
    in place, which is behind the pointer and is never read again. What the commands then do with queue, log and servers is the subject of other files; here
    it is only named. Numbers of more than 64 bits and texts of 2^31 bytes are not modelled. *)
From Coq Require Import String.
From Verif Require Import Base NumFmt WildModel CodecModel WebModel InfoModel.
Open Scope list_scope. Open Scope Z_scope.

(** Where m_requestPtr points: at the rest of the text, or behind its end. *)
Notation at_ := (option (list Z)).
Definition forward (t : list Z) (n : Z) : at_ := if n <=? Z.of_nat (length t) then Some (skipn (Z.to_nat n) t) else None.
(** The kind of request: address of GET, JSON of POST, XML of POST. For GET, [IsJson] too. *)
Inductive form := FGet (json : bool) | FJson | FXml.
Definition is_json (f : form) : bool := match f with FGet j => j | FJson => true | FXml => false end.
(** One parameter: memory behind the text was read, or found or not, and the pointer afterwards. *)
Inductive res (A : Type) := Undef | Res (v : option A) (p : at_).
Arguments Undef {A}. Arguments Res {A} v p.

(** Util.cpp:915-938, [XmlFindTag]: the text from the content on, and the length of the content. *)
Definition find_tag (tag xml : list Z) : option (list Z * Z) :=
  let opn := 60 :: tag ++ [62] in
  match strstr xml opn, strstr xml (60 :: tag ++ [47; 62]) with
  | None, None => None
  | None, Some q => Some (q, 0)
  | Some p, e =>
    match (match e with Some q => if (length p <? length q)%nat then Some q else None | None => None end) with
    | Some q => Some (q, 0)
    | None => match strstr p (60 :: 47 :: tag ++ [62]) with
              | None => None
              | Some q => Some (skipn (length opn) p, Z.of_nat (length p) - Z.of_nat (length q) - Z.of_nat (length opn))
              end
    end
  end.
(** XmlRpc.cpp:869-882. *)
Definition xml_next_value (xml tag : list Z) : option (list Z * Z) :=
  match find_tag (str "value") xml with
  | None => None
  | Some (v, n) => match find_tag tag v with
                   | None => None
                   | Some (c, k) => if Z.of_nat (length v) - Z.of_nat (length c) <=? n then Some (c, k) else None
                   end
  end.

Definition numeral (c : Z) : bool := (c =? 45) || (c =? 43) || is_digit c.
Fixpoint skip_numerals (t : list Z) : list Z := match t with c :: r => if numeral c || (c =? 38) then skip_numerals r else t | [] => [] end.
Definition head (t : list Z) : Z := match t with c :: _ => c | [] => 0 end.

(** XmlRpc.cpp:884-931, [NextParamAsInt]. *)
Definition next_int (f : form) (a : at_) : res Z :=
  match a with
  | None => Undef
  | Some t =>
    match f with
    | FGet _ => match index 61 t with
                | None => Res None a
                | Some i => let p := skipn (S i) t in Res (Some (atoi p)) (Some (skip_numerals p))
                end
    | FJson => match json_next_value t with
               | None => Res None a
               | Some (n, k) => let p := skipn (Z.to_nat n) t in
                                if numeral (head p) then Res (Some (atoi p)) (forward p (k + 1)) else Res None a
               end
    | FXml =>
      let '(v, g) := match xml_next_value t (str "i4") with Some x => (Some x, 4) | None => (xml_next_value t (str "int"), 5) end in
      match v with
      | None => Res None a
      | Some (p, k) => if numeral (head p) then Res (Some (atoi p)) (forward p (k + g)) else Res None a
      end
    end
  end.

(** XmlRpc.cpp:1002-1054, [NextParamAsStr]. *)
Definition next_str (f : form) (a : at_) : res (list Z) :=
  match a with
  | None => Undef
  | Some t =>
    match f with
    | FGet _ => match index 61 t with
                | None => Res None a
                | Some i => let p := skipn (S i) t in
                            match index 38 p with
                            | Some j => Res (Some (firstn j p)) (Some (skipn (S j) p))
                            | None => Res (Some p) (Some [])
                            end
                end
    | FJson => match json_next_value t with
               | None => Res None a
               | Some (n, k) =>
                 let p := skipn (Z.to_nat n) t in
                 if (k <? 2) || negb (head p =? 34) || negb (nth (Z.to_nat (k - 1)) p 0 =? 34) then Res None a
                 else Res (Some (firstn (Z.to_nat (k - 2)) (skipn 1 p))) (forward p (k + 1))
               end
    | FXml => match xml_next_value t (str "string") with
              | None => Res None a
              | Some (p, k) => Res (Some (firstn (Z.to_nat k) p)) (forward p (k + 8))
              end
    end
  end.

(** XmlRpc.cpp:933-1000, [NextParamAsBool]. *)
Definition next_bool (f : form) (a : at_) : res bool :=
  match f with
  | FGet json =>
    match next_str f a with
    | Undef => Undef
    | Res None p => Res None p
    | Res (Some v) p =>
      if json then Res (if prefixb (str "true") v then Some true else if prefixb (str "false") v then Some false else None) p
      else Res (Some (head v =? 49)) p
    end
  | FJson =>
    match a with
    | None => Undef
    | Some t => match json_next_value t with
                | None => Res None a
                | Some (n, k) =>
                  let p := skipn (Z.to_nat n) t in
                  if (k =? 4) && prefixb (str "true") p then Res (Some true) (forward p (k + 1))
                  else if (k =? 5) && prefixb (str "false") p then Res (Some false) (forward p (k + 1))
                  else Res None a
                end
    end
  | FXml =>
    match a with
    | None => Undef
    | Some t => match xml_next_value t (str "boolean") with
                | None => Res None a
                | Some (p, k) => Res (Some (head p =? 49)) (forward p (k + 9))
                end
    end
  end.

(** XmlRpc.cpp:850-867, [PrepareParams] (the callback of JSON-P, which is used with GET only, is a text parameter read first). *)
Definition prepare (f : form) (req : list Z) : at_ :=
  match f with
  | FJson => match strstr req (34 :: str "params" ++ [34]) with None => Some [] | Some p => Some (skipn 8 p) end
  | _ => Some req
  end.
(** XmlRpc.cpp:1080-1093, [DecodeStr]. *)
Definition decode_str (f : form) (s : list Z) : option (list Z) := if is_json f then json_decode s else xml_decode s.

(** ** The commands *)

Inductive dmode := DScore | DAll | DForce.
(** What is done. *)
Inductive effect :=
| ERate (bytes : Z) | EResume (seconds : Z)
| EEdit (action : Z) (args : list Z) (ids : list Z)
| EAppend (v13 : bool) (name content category : list Z) (priority : Z) (top paused : bool) (key : list Z) (score : Z) (mode : dmode) (params : list param)
| ELog (kind : list Z) (text : list Z)
| EServers (l : list (Z * bool)).
(** [OLoop]: not finished within the number of rounds given. *)
Inductive outcome := OUndef | OLoop | OError (code : Z) | ODone (e : effect).

Definition bind {A} (r : res A) (k : option A -> at_ -> outcome) : outcome := match r with Undef => OUndef | Res v p => k v p end.
(** A parameter without which the command fails. *)
Definition need {A} (r : res A) (k : A -> at_ -> outcome) : outcome :=
  match r with Undef => OUndef | Res None _ => OError 2 | Res (Some v) p => k v p end.
Definition decoded (f : form) (s : list Z) (k : list Z -> outcome) : outcome := match decode_str f s with None => OUndef | Some d => k d end.

(** XmlRpc.cpp:1172-1183; the product in int. *)
Definition do_rate (f : form) (a : at_) : outcome :=
  need (next_int f a) (fun r _ => if r <? 0 then OError 2 else if r * 1024 <? 2 ^ 31 then ODone (ERate (r * 1024)) else OUndef).
(** XmlRpc.cpp:1128-1142. *)
Definition do_resume (f : form) (a : at_) : outcome := need (next_int f a) (fun r _ => if r <? 0 then OError 2 else ODone (EResume r)).

(** XmlRpc.cpp:2020-2073, in the order of the actions (DownloadInfo.h:954-1007), which are numbered from 1. *)
Definition actions : list (list Z) := map str
  ["FileMoveOffset"; "FileMoveTop"; "FileMoveBottom"; "FilePause"; "FileResume"; "FileDelete"; "FilePauseAllPars"; "FilePauseExtraPars"; "FileReorder";
   "FileSplit"; "GroupMoveOffset"; "GroupMoveTop"; "GroupMoveBottom"; "GroupMoveBefore"; "GroupMoveAfter"; "GroupPause"; "GroupResume"; "GroupDelete";
   "GroupParkDelete"; "GroupDupeDelete"; "GroupFinalDelete"; "GroupPauseAllPars"; "GroupPauseExtraPars"; "GroupSetPriority"; "GroupSetCategory";
   "GroupApplyCategory"; "GroupMerge"; "GroupSetParameter"; "GroupSetName"; "GroupSetDupeKey"; "GroupSetDupeScore"; "GroupSetDupeMode"; "GroupSort";
   "GroupSortFiles"; "PostDelete"; "HistoryDelete"; "HistoryFinalDelete"; "HistoryReturn"; "HistoryProcess"; "HistoryRedownload"; "HistoryRetryFailed";
   "HistorySetParameter"; "HistorySetDupeKey"; "HistorySetDupeScore"; "HistorySetDupeMode"; "HistorySetDupeBackup"; "HistoryMarkBad"; "HistoryMarkGood";
   "HistoryMarkSuccess"; "HistorySetCategory"; "HistorySetName"]%string.
Fixpoint find_action (n : list Z) (i : Z) (l : list (list Z)) : option Z :=
  match l with [] => None | x :: r => if nocase_eq n x then Some i else find_action n (i + 1) r end.

(** Numbers until there is none. *)
Fixpoint ints (fuel : nat) (f : form) (a : at_) (k : list Z -> outcome) {struct fuel} : outcome :=
  match fuel with
  | O => OLoop
  | S n => bind (next_int f a) (fun v p => match v with None => k [] | Some i => ints n f p (fun l => k (i :: l)) end)
  end.
(** XmlRpc.cpp:2079-2134. *)
Definition do_edit (fuel : nat) (f : form) (a : at_) : outcome :=
  need (next_str f a) (fun cmd a =>
  match find_action cmd 1 actions with
  | None => OError 3
  | Some act =>
    bind (next_int f a) (fun off a =>
    need (next_str f a) (fun args a =>
    decoded f args (fun args =>
    let args := match off with Some o => if (act =? 1) || (act =? 11) then zdec o else args | None => args end in
    ints fuel f a (fun ids => ODone (EEdit act args ids)))))
  end).

(** XmlRpc.cpp:2219-2231: pairs of texts until there is none. *)
Fixpoint pairs (fuel : nat) (f : form) (a : at_) (acc : list param) (k : list param -> outcome) : outcome :=
  match fuel with
  | O => OLoop
  | S m => bind (next_str f a) (fun v a => match v with
             | None => k acc
             | Some n => need (next_str f a) (fun w a => pairs m f a (set_parameter acc n w) k)
             end)
  end.
(** XmlRpc.cpp:2205-2208. *)
Definition dupe_mode (s : list Z) : option dmode :=
  if nocase_eq s (str "score") then Some DScore else if nocase_eq s (str "all") then Some DAll else if nocase_eq s (str "force") then Some DForce else None.
(** XmlRpc.cpp:2246 and 2275-2276. *)
Definition content_of (s : list Z) : list Z :=
  if nocase_prefix (str "http://") s || nocase_prefix (str "https://") s then s else decode_base64 s.
(** XmlRpc.cpp:2144-2292. *)
Definition do_append (fuel : nat) (f : form) (a : at_) : outcome :=
  need (next_str f a) (fun name a =>
  need (next_str f a) (fun content a =>
  bind (next_str f a) (fun cat a =>
  let v13 := match cat with Some _ => true | None => false end in
  let category := match cat with Some c => c | None => content end in
  decoded f name (fun name =>
  decoded f category (fun category =>
  bind (next_int f a) (fun prio a =>
  let priority := match prio with Some x => x | None => 0 end in
  need (next_bool f a) (fun top a =>
  let rest (content : list Z) (a : at_) :=
    decoded f content (fun content =>
    bind (next_bool f a) (fun pz a =>
    let fin paused key score mode params := ODone (EAppend v13 name (content_of content) category priority top paused key score mode params) in
    let tail paused key score mode a := if v13 then pairs fuel f a [] (fin paused key score mode) else fin paused key score mode [] in
    match pz with
    | None => if v13 then OError 2 else fin false [] 0 DScore []
    | Some paused =>
      need (next_str f a) (fun key a =>
      decoded f key (fun key =>
      need (next_int f a) (fun score a =>
      need (next_str f a) (fun m a => match dupe_mode m with None => OError 2 | Some mode => tail paused key score mode a end))))
    end)) in
  if v13 then rest content a else need (next_str f a) (fun content a => rest content a)))))))).

(** XmlRpc.cpp:2352-2393. *)
Definition kinds : list (list Z) := map str ["INFO"; "WARNING"; "ERROR"; "DETAIL"; "DEBUG"]%string.
Definition do_writelog (f : form) (a : at_) : outcome :=
  need (next_str f a) (fun kind a => need (next_str f a) (fun text _ => decoded f text (fun text =>
  if existsb (beqb kind) kinds then ODone (ELog kind text) else OError 3))).

(** XmlRpc.cpp:2922-2962; servers changed before an error remain changed. *)
Fixpoint servers (fuel : nat) (f : form) (a : at_) (k : list (Z * bool) -> outcome) : outcome :=
  match fuel with
  | O => OLoop
  | S n => bind (next_int f a) (fun v a => match v with
             | None => k []
             | Some i => need (next_bool f a) (fun b a => servers n f a (fun l => k ((i, b) :: l)))
             end)
  end.
Definition do_editserver (fuel : nat) (f : form) (a : at_) : outcome :=
  servers fuel f a (fun l => match l with [] => OError 2 | _ => ODone (EServers l) end).

(** The procedures with the number of rounds that always suffices. *)
Inductive proc := PRate | PResume | PEdit | PAppend | PWriteLog | PEditServer.
Definition execute (p : proc) (f : form) (req : list Z) : outcome :=
  let a := prepare f req in let n := S (S (length req)) in
  match p with
  | PRate => do_rate f a | PResume => do_resume f a | PEdit => do_edit n f a | PAppend => do_append n f a
  | PWriteLog => do_writelog f a | PEditServer => do_editserver n f a
  end.
