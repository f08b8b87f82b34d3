(** What scripts can say and are told. *)
From Coq Require Import String.
From Verif Require Import Base NumFmt WildModel WildSpec CodecModel NameModel InfoModel WebModel OptModel QScrModel QScrSpec ScrModel.
Open Scope list_scope. Open Scope Z_scope.

Definition within (s p : list Z) : Prop := exists a b, s = a ++ p ++ b.

(** ** Output *)

Definition blank (c : Z) : Prop := c = 10 \/ c = 13 \/ c = 32.
(** The text of a line: without blanks at the end. *)
Definition text_of (l t : list Z) : Prop := exists b, l = t ++ b /\ Forall blank b /\ (t = [] \/ exists u c, t = u ++ [c] /\ ~ blank c).
Definition words : list (kind * list Z) :=
  [(KInfo, str "[INFO] "); (KWarning, str "[WARNING] "); (KError, str "[ERROR] "); (KDetail, str "[DETAIL] "); (KDebug, str "[DEBUG] ")].
(** A line is a message: of the kind the first word says, or information. *)
Definition speaks (l : list Z) (k : kind) (m : list Z) : Prop := exists t, text_of l t /\ t <> [] /\
  ((exists w, In (k, w) words /\ t = w ++ m) \/ (k = KInfo /\ m = t /\ forall k1 w r, In (k1, w) words -> t <> w ++ r)).
(** The output of a process: lines with line ends. *)
Definition written (ls : list (list Z)) : list Z := concat (map (fun l => l ++ [10]) ls).
(** Lines that fit into all buffers. *)
Definition fitting (disp : list Z) (ls : list (list Z)) : Prop := Forall (fun l => ~ In 10 l /\ ~ In 0 l /\ (length disp + 2 + length l <= Z.to_nat 1023)%nat) ls.

(** ** Commands of post-processing scripts *)

Definition mark_message (name : list Z) : list Z := str "Marking " ++ name ++ str " as bad".
(** The program's own message is not taken for a command. *)
Definition quiet (name disp : list Z) : Prop :=
  (length (mark_message name) <= Z.to_nat 1023)%nat /\ (length disp + 2 <= length (mark_message name))%nat /\ ~ within (mark_message name) (str "[NZB] ").
Definition post_command (m : list Z) : Prop :=
  (exists d, m = str "[NZB] FINALDIR=" ++ d) \/ (exists d, m = str "[NZB] DIRECTORY=" ++ d) \/ (exists n v, m = str "[NZB] NZBPR_" ++ n ++ 61 :: v) \/
  exists r, m = str "[NZB] MARK=BAD" ++ r.
Inductive post_effect (name disp : list Z) (k : kind) (m : list Z) (x : pstate) : pstate -> Prop :=
| pe_final d : m = str "[NZB] FINALDIR=" ++ d -> post_effect name disp k m x (PState d (p_dest x) (p_params x) (p_bad x) (p_log x))
| pe_dest d : m = str "[NZB] DIRECTORY=" ++ d -> post_effect name disp k m x (PState (p_final x) d (p_params x) (p_bad x) (p_log x))
| pe_param n v : m = str "[NZB] NZBPR_" ++ n ++ 61 :: v -> ~ In 61 n -> post_effect name disp k m x (PState (p_final x) (p_dest x) (set_parameter (p_params x) n v) (p_bad x) (p_log x))
| pe_bad r : m = str "[NZB] MARK=BAD" ++ r ->
    post_effect name disp k m x (PState (p_final x) (p_dest x) (p_params x) true (p_log x ++ [Said KWarning (mark_message name)]))
| pe_wrong r : m = str "[NZB] " ++ r -> ~ post_command m -> post_effect name disp k m x (PState (p_final x) (p_dest x) (p_params x) (p_bad x) (p_log x ++ [Invalid m]))
| pe_text : (forall r, m <> str "[NZB] " ++ r) -> post_effect name disp k m x (PState (p_final x) (p_dest x) (p_params x) (p_bad x) (p_log x ++ [Said k (disp ++ str ": " ++ m)])).
(** Line by line. *)
Inductive heard {A} (effect : kind -> list Z -> A -> A -> Prop) : list (list Z) -> A -> A -> Prop :=
| h_nil x : heard effect [] x x
| h_silent l r x y : text_of l [] -> heard effect r x y -> heard effect (l :: r) x y
| h_line l k m r x y z : speaks l k m -> effect k m x y -> heard effect r y z -> heard effect (l :: r) x z.

(** ** Which scripts *)

(** Names that can be written into a list of names. *)
Definition plain_name (n : list Z) : Prop := n <> [] /\ ~ In 44 n /\ ~ In 59 n /\ WildModel.trim n = n.
Definition assigned (params : list param) (n : list Z) : Prop := exists v, In (n ++ [58], v) params /\ hd 0 (n ++ [58]) <> 42 /\ said_yes v.

(** ** Parameters of new downloads *)

Definition cat_of (g : icfg) (cat : list Z) (s : bool * list Z) : Prop :=
  cat <> [] /\ exists a c b, v_cats g = a ++ (c, s) :: b /\ same_name (c_name c) cat /\ Forall (fun d => ~ same_name (c_name (fst d)) cat) a.
(** Unpack and extensions for the category: its own, but for missing extensions; without category the global ones. *)
Definition settings (g : icfg) (cat : list Z) (u : bool) (e : list Z) : Prop :=
  (exists x, cat_of g cat (u, x) /\ ((x <> [] /\ e = x) \/ (x = [] /\ e = v_exts g))) \/
  (u = v_unpack g /\ e = v_exts g /\ forall s, ~ cat_of g cat s).
(** The value of a parameter of a new download: the value given before, otherwise that of the category. *)
Definition default_value (g : icfg) (scripts : list pscript) (cat n v : list Z) : Prop := exists u e, settings g cat u e /\
  ((same_name n (str "*Unpack:") /\ v = if u then str "yes" else str "no") \/
   (~ same_name n (str "*Unpack:") /\ v = str "yes" /\ exists s, In (s, true) scripts /\ lists e s /\ same_name n (s ++ [58]))).

(** ** Commands of scan-scripts *)

Inductive scan_effect (g : icfg) (scripts : list pscript) (disp : list Z) (k : kind) (m : list Z) : sstate -> sstate -> Prop :=
| se_name v n c p pr tp ps dk ds dm lg : m = str "[NZB] NZBNAME=" ++ v -> scan_effect g scripts disp k m (SState n c p pr tp ps dk ds dm lg) (SState v c p pr tp ps dk ds dm lg)
| se_cat v n c p pr tp ps dk ds dm lg : m = str "[NZB] CATEGORY=" ++ v ->
    scan_effect g scripts disp k m (SState n c p pr tp ps dk ds dm lg) (SState n v (init_params g scripts v true p) pr tp ps dk ds dm lg)
| se_param a v n c p pr tp ps dk ds dm lg : m = str "[NZB] NZBPR_" ++ a ++ 61 :: v -> ~ In 61 a ->
    scan_effect g scripts disp k m (SState n c p pr tp ps dk ds dm lg) (SState n c (set_parameter p a v) pr tp ps dk ds dm lg)
| se_priority v n c p pr tp ps dk ds dm lg : m = str "[NZB] PRIORITY=" ++ v -> scan_effect g scripts disp k m (SState n c p pr tp ps dk ds dm lg) (SState n c p (atoi v) tp ps dk ds dm lg)
| se_top v n c p pr tp ps dk ds dm lg : m = str "[NZB] TOP=" ++ v -> scan_effect g scripts disp k m (SState n c p pr tp ps dk ds dm lg) (SState n c p pr (negb (atoi v =? 0)) ps dk ds dm lg)
| se_paused v n c p pr tp ps dk ds dm lg : m = str "[NZB] PAUSED=" ++ v -> scan_effect g scripts disp k m (SState n c p pr tp ps dk ds dm lg) (SState n c p pr tp (negb (atoi v =? 0)) dk ds dm lg)
| se_key v n c p pr tp ps dk ds dm lg : m = str "[NZB] DUPEKEY=" ++ v -> scan_effect g scripts disp k m (SState n c p pr tp ps dk ds dm lg) (SState n c p pr tp ps v ds dm lg)
| se_score v n c p pr tp ps dk ds dm lg : m = str "[NZB] DUPESCORE=" ++ v -> scan_effect g scripts disp k m (SState n c p pr tp ps dk ds dm lg) (SState n c p pr tp ps dk (atoi v) dm lg)
| se_mode v i n c p pr tp ps dk ds dm lg : m = str "[NZB] DUPEMODE=" ++ v -> (i < 3)%nat -> same_name v (nth i [str "score"; str "all"; str "force"] []) ->
    scan_effect g scripts disp k m (SState n c p pr tp ps dk ds dm lg) (SState n c p pr tp ps dk ds (Z.of_nat i) lg)
| se_wrong_mode v n c p pr tp ps dk ds dm lg : m = str "[NZB] DUPEMODE=" ++ v -> (forall i, (i < 3)%nat -> ~ same_name v (nth i [str "score"; str "all"; str "force"] [])) ->
    scan_effect g scripts disp k m (SState n c p pr tp ps dk ds dm lg) (SState n c p pr tp ps dk ds dm (lg ++ [Invalid v]))
| se_wrong r n c p pr tp ps dk ds dm lg : m = str "[NZB] " ++ r ->
    (forall w v, In w ["NZBNAME="; "CATEGORY="; "PRIORITY="; "TOP="; "PAUSED="; "DUPEKEY="; "DUPESCORE="; "DUPEMODE="]%string -> r <> str w ++ v) ->
    (forall a v, r <> str "NZBPR_" ++ a ++ 61 :: v) ->
    scan_effect g scripts disp k m (SState n c p pr tp ps dk ds dm lg) (SState n c p pr tp ps dk ds dm (lg ++ [Invalid m]))
| se_text n c p pr tp ps dk ds dm lg : (forall r, m <> str "[NZB] " ++ r) ->
    scan_effect g scripts disp k m (SState n c p pr tp ps dk ds dm lg) (SState n c p pr tp ps dk ds dm (lg ++ [Said k (disp ++ str ": " ++ m)])).

(** ** Environment *)

(** A variable of the program's own kind, like NZBOP_...; these are not inherited. *)
Definition ours (e : list Z) : Prop := exists x y r, e = str "NZB" ++ x :: y :: 95 :: r.
(** Parameters or options told to the script: under their name and under the name in capitals with special characters replaced. *)
Definition told (prefix : list Z) (skip : list Z) (l : list (list Z * list Z)) (n v : list Z) : Prop :=
  exists a, In (skip ++ a, v) l /\ (skip = [] \/ a <> []) /\ (n = prefix ++ 95 :: a \/ n = norm (prefix ++ 95 :: a)).
Definition named_well (l : list (list Z * list Z)) : Prop := Forall (fun p => ~ In 61 (fst p) /\ (length (fst p) <= Z.to_nat 1000)%nat) l.

(** ** Arguments *)

(** The extension: from the last dot on. *)
Definition extension (path ext : list Z) : Prop := exists a r, path = a ++ ext /\ ext = 46 :: r /\ ~ In 46 r.
(** The first entry of the list for the extension. *)
Definition overrides (l : list (list Z)) (ext cmd : list Z) : Prop := exists a e b, l = a ++ (e ++ 61 :: cmd) :: b /\ ~ In 61 e /\ same_name ext e /\
  Forall (fun t => forall e1 c1, t = e1 ++ 61 :: c1 -> ~ In 61 e1 -> ~ same_name ext e1) a.
(** The entries of an option with commas or semicolons between them. *)
Definition entries (s : list Z) : list (list Z) :=
  filter (fun t => match t with [] => false | _ => true end) (map WildModel.trim (fields (in_set (str ",;")) s)).

(** ** Scan-scripts one after another *)

Definition start_message (name file : list Z) : list Z := str "Executing scan-script " ++ name ++ str " for " ++ file.
(** Messages of the start that are not taken for commands. *)
Definition announced (skip : nat) (name file : list Z) : Prop :=
  (length (start_message name file) <= Z.to_nat 1023)%nat /\ (skip <= length (start_message name file))%nat /\ ~ within (start_message name file) (str "[NZB] ").
Inductive scanned (g : icfg) (scripts : list pscript) (file : list Z) : list (list Z * list Z * list (list Z)) -> sstate -> sstate -> Prop :=
| sc_nil x : scanned g scripts file [] x x
| sc_next name disp ls r n c p pr tp ps dk ds dm lg y z :
    heard (scan_effect g scripts disp) ls (SState n c p pr tp ps dk ds dm (lg ++ [Said KInfo (start_message name file)])) y ->
    scanned g scripts file r y z -> scanned g scripts file ((name, disp, ls) :: r) (SState n c p pr tp ps dk ds dm lg) z.
(** All output fits and no announcement is taken for a command; [skip] is the length of the prefix of the script before. *)
Fixpoint scan_fits (file : list Z) (skip : nat) (l : list (list Z * list Z * list (list Z))) : Prop :=
  match l with [] => True | (name, disp, ls) :: r => announced skip name file /\ fitting disp ls /\ scan_fits file (length disp + 2) r end.

(** ** A new category *)

(** The parameter switches a script on or off. *)
Definition of_script (scripts : list pscript) (n : list Z) : Prop := exists s b, In (s, b) scripts /\ same_name n (s ++ [58]).
