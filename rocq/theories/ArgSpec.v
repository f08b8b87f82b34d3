(** What the help text says about the command line; independent of how it is read. *)
From Coq Require Import String.
From Verif Require Import Base NumFmt WildModel ArgModel.
Open Scope list_scope. Open Scope Z_scope.

Definition like (a b : list Z) : Prop := map lower a = map lower b.
Definition begins (p s : list Z) : Prop := exists a r, s = a ++ r /\ like a p.
Definition int32 (z : Z) : Prop := - 2 ^ 31 <= z < 2 ^ 31.
(** A word that is no switch. *)
Definition no_switch (w : list Z) : Prop := forall r, w <> 45 :: r.

(** ** Settings that may stand before the command *)
Inductive given := GConfig (f : list Z) | GNoConfig | GOption (o : list Z).
Definition given_words (g : given) (ws : list (list Z)) : Prop :=
  match g with
  | GConfig f => ws = [str "-c"; f] \/ ws = [str "--configfile"; f]
  | GNoConfig => ws = [str "-n"] \/ ws = [str "--noconfigfile"]
  | GOption o => ws = [str "-o"; o] \/ ws = [str "--option"; o]
  end.
Definition latest {A B : Type} (pick : A -> option B) (l : list A) (d : B) : B := fold_left (fun d x => match pick x with Some v => v | None => d end) l d.
(** The configuration file: the last one named counts. *)
Definition config_of (gs : list given) : option (list Z) := latest (fun g => match g with GConfig f => Some (Some f) | GNoConfig => Some None | _ => None end) gs None.
Definition options_of (gs : list given) : list (list Z) := flat_map (fun g => match g with GOption o => [o] | _ => [] end) gs.
Definition settings (gs : list given) (s : cl) : Prop := c_config s = config_of gs /\ c_options s = options_of gs.

(** ** Ids *)
Inductive ids := One (n : Z) | Range (a b : Z).
Definition id (n : Z) : Prop := 1 <= n < 2 ^ 31.
Definition ids_ok (p : ids) : Prop := match p with One n => id n | Range a b => id a /\ id b end.
Definition ids_text (p : ids) : list Z := match p with One n => zdec n | Range a b => zdec a ++ str "-" ++ zdec b end.
(** From the first to the last, upwards or downwards, none left out. *)
Definition ids_mean (p : ids) (l : list Z) : Prop :=
  match p with
  | One n => l = [n]
  | Range a b => Z.of_nat (length l) = Z.abs (b - a) + 1 /\ forall i, (i < length l)%nat -> nth i l 0 = if a <=? b then a + Z.of_nat i else a - Z.of_nat i
  end.
Definition sep (c : Z) : Prop := c = 44 \/ c = 32.
(** Written in one word with commas or blanks between. *)
Inductive listed : list ids -> list Z -> Prop :=
| l_nil w : Forall sep w -> listed [] w
| l_one w p : Forall sep w -> listed [p] (w ++ ids_text p)
| l_cons w p c ps t : Forall sep w -> sep c -> listed ps t -> listed (p :: ps) (w ++ ids_text p ++ c :: t).
(** A word with a piece in it that is no id: it begins with something else than a digit (or a plus sign or white space, which are let pass), or is the number 0, or a range with 0 or without its end. *)
Definition no_id (t : list Z) : Prop := t = str "0" \/ (exists n, id n /\ (t = zdec n ++ str "-0" \/ t = zdec n ++ str "-" \/ t = str "0-" ++ zdec n)) \/ exists c r, t = c :: r /\ is_digit c = false /\ is_space c = false /\ c <> 43.
Definition has_no_id (w : list Z) : Prop :=
  exists a t b, w = a ++ t ++ b /\ no_id t /\ Forall (fun c => ~ sep c) t /\ (a = [] \/ exists a' c, a = a' ++ [c] /\ sep c) /\ (b = [] \/ exists c b', b = c :: b' /\ sep c).

(** ** -A *)
Inductive aopt := OCompat | OTop | OPaused | OPriority (z : Z) | OCategory (t : list Z) | OName (t : list Z) | OKey (t : list Z) | OScore (z : Z) | OMode (m : dmode).
Definition mode_word (m : dmode) : list Z := match m with DScore => str "score" | DAll => str "all" | DForce => str "force" end.
Definition aopt_words (o : aopt) (ws : list (list Z)) : Prop :=
  match o with
  | OCompat => exists w, ws = [w] /\ (like w (str "F") \/ like w (str "U"))
  | OTop => exists w, ws = [w] /\ like w (str "T")
  | OPaused => exists w, ws = [w] /\ like w (str "P")
  | OPriority z => exists w, ws = [w; zdec z] /\ like w (str "I") /\ int32 z
  | OCategory t => exists w, ws = [w; t] /\ like w (str "C")
  | OName t => exists w, ws = [w; t] /\ like w (str "N")
  | OKey t => exists w, ws = [w; t] /\ like w (str "DK")
  | OScore z => exists w, ws = [w; zdec z] /\ like w (str "DS") /\ int32 z
  | OMode m => exists w v, ws = [w; v] /\ like w (str "DM") /\ like v (mode_word m)
  end.
Definition aopt_names : list string := ["F"; "U"; "T"; "P"; "I"; "C"; "N"; "DK"; "DS"; "DM"]%string.
Definition file_word (f : list Z) : Prop := no_switch f /\ forall n, In n aopt_names -> ~ like f (str n).
(** What may not follow the settings: nothing, a setting without its value, an unknown mode. *)
Definition append_wrong (rest : list (list Z)) : Prop :=
  rest = [] \/ (exists w n, rest = [w] /\ In n ["I"; "C"; "N"; "DK"; "DS"; "DM"]%string /\ like w (str n)) \/
  (exists w v r, rest = w :: v :: r /\ like w (str "DM") /\ forall m, ~ like v (mode_word m)).
(** An absolute name and an address stay as they are. *)
Definition full_name (cwd f g : list Z) : Prop :=
  (begins (str "/") f \/ begins (str "http://") f \/ begins (str "https://") f) /\ g = f \/
  ~ begins (str "/") f /\ ~ begins (str "http:/") f /\ ~ begins (str "https:/") f /\ g = cwd ++ str "/" ++ f.
Definition some_of {A : Type} (x : option A) : option (option A) := match x with Some v => Some (Some v) | None => None end.
Definition added_is (os : list aopt) (a : added) : Prop :=
  (a_top a = true <-> In OTop os) /\ (a_paused a = true <-> In OPaused os) /\
  a_priority a = latest (fun o => match o with OPriority z => Some z | _ => None end) os 0 /\
  a_category a = latest (fun o => match o with OCategory t => Some (Some t) | _ => None end) os None /\
  a_name a = latest (fun o => match o with OName t => Some (Some t) | _ => None end) os None /\
  a_key a = latest (fun o => match o with OKey t => Some (Some t) | _ => None end) os None /\
  a_score a = latest (fun o => match o with OScore z => Some z | _ => None end) os 0 /\
  a_mode a = latest (fun o => match o with OMode m => Some m | _ => None end) os DScore.

(** ** -E *)
Inductive scope := SFile | SGroup | SPost | SHistory.
(** The word for the scope and for how the items are named; files by ids need none. *)
Definition scope_words (sc : scope) (m : mmode) (ws : list (list Z)) : Prop :=
  match sc, m with
  | SFile, MId => ws = [] \/ exists w, ws = [w] /\ like w (str "F")
  | SFile, MName => exists w, ws = [w] /\ like w (str "FN")
  | SFile, MRegEx => exists w, ws = [w] /\ like w (str "FR")
  | SGroup, MId => exists w, ws = [w] /\ like w (str "G")
  | SGroup, MName => exists w, ws = [w] /\ like w (str "GN")
  | SGroup, MRegEx => exists w, ws = [w] /\ like w (str "GR")
  | SPost, MId => exists w, ws = [w] /\ like w (str "O")
  | SHistory, MId => exists w, ws = [w] /\ like w (str "H")
  | _, _ => False
  end.
Inductive vkind := VNone | VText | VParam | VPriority.
Definition commands : list (scope * string * action * vkind) :=
  [(SFile, "T", FileMoveTop, VNone); (SFile, "B", FileMoveBottom, VNone); (SFile, "D", FileDelete, VNone); (SFile, "P", FilePause, VNone); (SFile, "U", FileResume, VNone);
   (SFile, "S", FileSplit, VText);
   (SGroup, "T", GroupMoveTop, VNone); (SGroup, "B", GroupMoveBottom, VNone); (SGroup, "D", GroupDelete, VNone); (SGroup, "P", GroupPause, VNone); (SGroup, "U", GroupResume, VNone);
   (SGroup, "A", GroupPauseAllPars, VNone); (SGroup, "R", GroupPauseExtraPars, VNone); (SGroup, "DP", GroupParkDelete, VNone); (SGroup, "I", GroupSetPriority, VPriority);
   (SGroup, "C", GroupSetCategory, VText); (SGroup, "CP", GroupApplyCategory, VText); (SGroup, "N", GroupSetName, VText); (SGroup, "M", GroupMerge, VNone);
   (SGroup, "SF", GroupSortFiles, VNone); (SGroup, "O", GroupSetParameter, VParam);
   (SPost, "D", PostDelete, VNone);
   (SHistory, "D", HistoryDelete, VNone); (SHistory, "P", HistoryProcess, VNone); (SHistory, "R", HistoryReturn, VNone); (SHistory, "A", HistoryRedownload, VNone);
   (SHistory, "F", HistoryRetryFailed, VNone); (SHistory, "O", HistorySetParameter, VParam); (SHistory, "B", HistoryMarkBad, VNone); (SHistory, "G", HistoryMarkGood, VNone);
   (SHistory, "S", HistoryMarkSuccess, VNone)]%string.
Definition value_words (k : vkind) (ws : list (list Z)) (t : option (list Z)) : Prop :=
  match k with
  | VNone => ws = [] /\ t = None
  | VText => exists v, ws = [v] /\ t = Some v
  | VParam => exists n v, ws = [n ++ str "=" ++ v] /\ t = Some (n ++ str "=" ++ v)
  | VPriority => exists z, int32 z /\ ws = [zdec z] /\ t = Some (zdec z)
  end.
(** The items of the command. *)
Definition items (m : mmode) (fs : list (list Z)) (s : cl) : Prop :=
  match m with
  | MId => forall pss, Forall2 listed pss fs -> Forall ids_ok (concat pss) -> exists ls, Forall2 ids_mean (concat pss) ls /\ c_ids s = concat ls
  | _ => c_names s = fs
  end.
Definition items_ok (m : mmode) (fs : list (list Z)) : Prop :=
  match m with MId => exists pss, Forall2 listed pss fs /\ Forall ids_ok (concat pss) | _ => Forall no_switch fs end.
(** Commands for groups only, those with a value or for merging. *)
Definition group_only : list string := ["C"; "K"; "CP"; "N"; "M"; "O"; "I"]%string.
Definition scope_names : list string := ["F"; "FN"; "FR"; "G"; "GN"; "GR"; "O"; "H"]%string.
(** All words for actions; "K" is an old one. *)
Definition action_names : list string := "K"%string :: map (fun x => snd (fst (fst x))) commands.
Definition unknown (w : list Z) : Prop :=
  (forall n, In n action_names -> ~ like w (str n)) /\ (forall n, In n scope_names -> ~ like w (str n)) /\
  forall c r, w = c :: r -> is_digit c = false /\ is_space c = false /\ c <> 43 /\ c <> 45.
(** "+5", "5" or "-5". *)
Definition offset_word (z : Z) (w : list Z) : Prop := int32 z /\ z <> 0 /\ (w = zdec z \/ 0 < z /\ w = 43 :: zdec z).
Definition move_of (sc : scope) : action := match sc with SGroup => GroupMoveOffset | _ => FileMoveOffset end.
