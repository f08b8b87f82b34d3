(** The commands of the help text without items; independent of how they are read. *)
From Coq Require Import String.
From Verif Require Import Base NumFmt WildModel ArgModel ArgSpec.
Open Scope list_scope. Open Scope Z_scope.

(** Short and long name of the switch, the word behind it, what is asked for. *)
Definition simple : list (string * string * option string * oper) :=
  [("-P", "--pause", None, RequestDownloadPause); ("-P", "--pause", Some "D", RequestDownloadPause); ("-P", "--pause", Some "O", RequestPostPause); ("-P", "--pause", Some "S", RequestScanPause);
   ("-U", "--unpause", None, RequestDownloadUnpause); ("-U", "--unpause", Some "D", RequestDownloadUnpause); ("-U", "--unpause", Some "O", RequestPostUnpause); ("-U", "--unpause", Some "S", RequestScanUnpause);
   ("-L", "--list", None, RequestListFiles); ("-L", "--list", Some "F", RequestListFiles); ("-L", "--list", Some "G", RequestListGroups); ("-L", "--list", Some "O", RequestPostQueue);
   ("-L", "--list", Some "H", RequestHistory); ("-L", "--list", Some "HA", RequestHistoryAll); ("-L", "--list", Some "S", RequestListStatus);
   ("-S", "--scan", None, RequestScanAsync); ("-S", "--scan", Some "W", RequestScanSync);
   ("-Q", "--quit", None, RequestShutdown); ("-O", "--reload", None, RequestReload); ("-V", "--serverversion", None, RequestVersion)]%string.
Definition sub_words (o : option string) (ws : list (list Z)) : Prop := match o with None => ws = [] | Some n => exists w, ws = [w] /\ like w (str n) end.
Definition is_of (a b : string) (w : list Z) : Prop := w = str a \/ w = str b.
(** Switches that may be followed by one of some words. *)
Definition optional : list (string * string * list string) :=
  [("-P", "--pause", ["D"; "O"; "S"]); ("-U", "--unpause", ["D"; "O"; "S"]); ("-L", "--list", ["F"; "FR"; "G"; "GR"; "O"; "H"; "HA"; "S"]); ("-S", "--scan", ["W"])]%string.
(** Switches without words behind them. *)
Definition bare : list (string * string) := [("-Q", "--quit"); ("-O", "--reload"); ("-V", "--serverversion")]%string.
