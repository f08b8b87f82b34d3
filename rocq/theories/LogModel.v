(** Model of the message log: daemon/util/Log.cpp, AddMessage (283-294), Clear (277-281),
    InitOptions (369-424), the length limit of info() and its companions (230-275), and
    of the remote call [log]: daemon/remote/XmlRpc.cpp, LogXmlCommand::Execute (1384-1451).
    Not modelled: the log file, the message time, the text of the response (only which
    messages it holds), the mutex. *)
From Verif Require Import Base.

(** class Message, Log.h 36-67: id, kind, text. *)
Record msg := mkMsg { g_id : Z; g_kind : Z; g_text : list Z }.
(** m_messages, m_idGen, m_optInit. *)
Record mlog := mkLog { l_msgs : list msg; l_gen : Z; l_init : bool }.

Definition u32 (z : Z) : Z := z mod 4294967296.
Definition s32 (z : Z) : Z := (z + 2147483648) mod 4294967296 - 2147483648.

(** The loop 289-292, [limit] is the option LogBuffer. *)
Fixpoint trim_front (limit : Z) (l : list msg) : list msg :=
  if u32 limit <? Z.of_nat (length l) then
    match l with [] => [] | _ :: r => trim_front limit r end
  else l.

(** vsnprintf(tmp2, 1024, ...): at most 1023 bytes. *)
Definition cut_text (t : list Z) : list Z := firstn 1023 t.

(** AddMessage, 283-294, reached from info(), warn() and so on. *)
Definition add_message (limit kind : Z) (text : list Z) (s : mlog) : mlog :=
  let id := u32 (l_gen s + 1) in
  let l := l_msgs s ++ [mkMsg id kind (cut_text text)] in
  mkLog (if l_init s then trim_front limit l else l) id (l_init s).

Definition clear_log (s : mlog) : mlog := mkLog [] (l_gen s) (l_init s).

(** InitOptions, the loop 384-421; [keep] tells for a kind whether its target is the
    screen or both. *)
Fixpoint renumber (keep : Z -> bool) (gen : Z) (l : list msg) : list msg * Z :=
  match l with
  | [] => ([], gen)
  | m :: r =>
      if keep (g_kind m) then
        let id := u32 (gen + 1) in
        let (r', g) := renumber keep id r in (mkMsg id (g_kind m) (g_text m) :: r', g)
      else renumber keep gen r
  end.
Definition init_options (keep : Z -> bool) (s : mlog) : mlog :=
  let (l, g) := renumber keep 0 (l_msgs s) in mkLog l g true.

(** LogXmlCommand::Execute, 1386-1440: the messages of the response, [None] if the
    parameters are rejected. Ids are 32 bits unsigned, [start] a 32 bits signed number. *)
Definition log_call (id_from entries : Z) (l : list msg) : option (list msg) :=
  if (0 <? entries) && (0 <? id_from) then None
  else
    let size := Z.of_nat (length l) in
    let start := if 0 <? entries then size - (if size <? entries then size else entries) else size in
    let start :=
      match l with
      | [] => start
      | m :: _ => if 0 <? id_from then let d := s32 (u32 (id_from - g_id m)) in if d <? 0 then 0 else d else start
      end in
    Some (skipn (Z.to_nat (u32 start)) l).

(** Histories. *)
Inductive log_op := LAdd (kind : Z) (text : list Z) | LClear | LInit (keep : Z -> bool).
Definition log_step (limit : Z) (s : mlog) (o : log_op) : mlog :=
  match o with
  | LAdd k t => add_message limit k t s
  | LClear => clear_log s
  | LInit keep => init_options keep s
  end.
Definition log_run (limit : Z) (ops : list log_op) (s : mlog) : mlog := fold_left (log_step limit) ops s.
Definition new_log : mlog := mkLog [] 0 false.
