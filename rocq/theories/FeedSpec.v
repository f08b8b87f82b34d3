(** What feed filters mean. *)
From Coq Require Import String.
From Verif Require Import Base NumFmt WildSpec WildModel FeedModel.

(** ** Formulas: words, conjunctions and disjunctions *)
Inductive fexp := FWord (w : list Z) | FAll (l : list fexp) | FAny (l : list fexp).

Fixpoint feval (v : list Z -> bool) (e : fexp) : bool :=
  match e with
  | FWord w => v w
  | FAll l => forallb (feval v) l
  | FAny l => existsb (feval v) l
  end.

(** No empty group. *)
Fixpoint fwell (e : fexp) : Prop :=
  match e with
  | FWord _ => True
  | FAll l => l <> [] /\ (fix all l := match l with [] => True | x :: r => fwell x /\ all r end) l
  | FAny l => l <> [] /\ (fix all l := match l with [] => True | x :: r => fwell x /\ all r end) l
  end.
Fixpoint fwords (e : fexp) : list (list Z) :=
  match e with
  | FWord w => [w]
  | FAll l => flat_map fwords l
  | FAny l => flat_map fwords l
  end.

(** How a formula is written: the members of a conjunction one after the other, those of a
    disjunction separated by a bar, groups inside groups in parentheses. *)
Fixpoint bars (l : list (list (list Z))) : list (list Z) :=
  match l with
  | [] => []
  | [x] => x
  | x :: r => x ++ str "|" :: bars r
  end.
Definition in_parens (e : fexp) (t : list (list Z)) : list (list Z) :=
  match e with FWord _ => t | _ => str "(" :: t ++ [str ")"] end.
Fixpoint ftexts (e : fexp) : list (list Z) :=
  match e with
  | FWord w => [w]
  | FAll l => flat_map (fun x => in_parens x (ftexts x)) l
  | FAny l => bars (map (fun x => in_parens x (ftexts x)) l)
  end.
(** Written with single blanks between the parts. *)
Fixpoint spaced (l : list (list Z)) : list Z :=
  match l with
  | [] => []
  | [x] => x
  | x :: r => x ++ 32 :: spaced r
  end.
Definition ftext (e : fexp) : list Z := spaced (ftexts e).

(** A visible word that is not one of the signs. *)
Definition visible (w : list Z) : Prop := w <> [] /\ ~ In 32 w.
Definition plain_word (w : list Z) : Prop := w <> str "(" /\ w <> str ")" /\ w <> str "|".
Definition brace_cmd (c : fcmd) : bool :=
  match c with fcOpeningBrace | fcClosingBrace | fcOrOperator => true | _ => false end.
(** The word, taken alone, is a valid term with verdict [b] for the item. *)
Definition word_means (e : fenv) (want : bool) (i : fitem) (o : fopts) (w : list Z) (b : bool) : Prop :=
  exists t refs, compile_term e 1 w = COk t /\ brace_cmd (t_cmd t) = false /\ term_match e want t i o = Some (b, refs).

(** ** Rules *)

(** What a rule with this command decides when its formula has this value. *)
Definition decides (c : rcmd) (b : bool) : option mstatus :=
  match c with
  | frAccept => if b then Some msAccepted else None
  | frReject => if b then Some msRejected else None
  | frRequire => if b then None else Some msRejected
  | frOptions | frComment => None
  end.
(** Going past rules none of which decides; Options rules that match set options. *)
Inductive passed (e : fenv) (i : fitem) : list (option rule) -> fopts -> fopts -> Prop :=
| pa_nil o : passed e i [] o o
| pa_invalid l o o' : passed e i l o o' -> passed e i (None :: l) o o'
| pa_rule u b opts l o o' : rule_match e u i o = Some (b, opts) -> decides (u_cmd u) b = None ->
    passed e i l (if b then match u_cmd u with frOptions => apply_options opts i o | _ => o end else o) o' ->
    passed e i (Some u :: l) o o'.

(** ** Text terms *)

(** The words of a text: what lies between separators, without blanks at the ends. *)
Definition word_of (seps : list Z) (s w : list Z) : Prop :=
  exists f, In f (fields (fun c => existsb (Z.eqb c) seps) s) /\ trimmed f w /\ w <> [].
(** The mask is searched anywhere in the text, not word by word. *)
Definition anywhere (seps param : list Z) : Prop :=
  (exists m, param = 42 :: m ++ [42]) \/
  (exists c, In c param /\ In c seps /\ c <> 42 /\ c <> 63 /\ c <> 35).
Definition punctuation (c : Z) : Prop :=
  32 <= c <= 47 \/ 58 <= c <= 64 \/ 91 <= c <= 96 \/ 123 <= c <= 126.

(** ** Numbers *)
Inductive unit_text : list Z -> Z -> Prop :=
| ut_b : unit_text [] 1
| ut_k x : In x ["K"; "KB"; "k"; "kb"; "Kb"; "kB"]%string -> unit_text (str x) 1024
| ut_m x : In x ["M"; "MB"; "m"; "mb"; "Mb"; "mB"]%string -> unit_text (str x) 1048576
| ut_g x : In x ["G"; "GB"; "g"; "gb"; "Gb"; "gB"]%string -> unit_text (str x) 1073741824.
Inductive age_text : list Z -> Z -> Prop :=
| at_none : age_text [] 86400
| at_m x : In x ["m"; "M"]%string -> age_text (str x) 60
| at_h x : In x ["h"; "H"]%string -> age_text (str x) 3600
| at_d x : In x ["d"; "D"]%string -> age_text (str x) 86400.
(** Comparison signs. *)
Inductive sign : list Z -> (Z -> Z -> Prop) -> Prop :=
| sg_eq : sign (str "=") (fun a b => a = b)
| sg_lt : sign (str "<") (fun a b => a < b)
| sg_le : sign (str "<=") (fun a b => a <= b)
| sg_gt : sign (str ">") (fun a b => a > b)
| sg_ge : sign (str ">=") (fun a b => a >= b).

(** ** Feeds *)
Inductive feed_op :=
| OFetch (now fin : Z) (f : feed) (urls : list (list Z))   (* accepted urls of one fetch *)
| OCompleted (now : Z) (url : list Z).
Fixpoint feed_run (ops : list feed_op) (hist : list hentry) : list hentry * list (list Z) :=
  match ops with
  | [] => (hist, [])
  | OFetch now fin f urls :: r =>
    let '(_, hist1, added) := process_feed now fin f urls hist in
    let '(hist2, added2) := feed_run r hist1 in (hist2, added ++ added2)
  | OCompleted now url :: r => feed_run r (url_completed now url hist)
  end.

(** Result of a filter: the first deciding rule decides; option rules passed before it have been applied. *)
Definition outcome (e : fenv) (i : fitem) (l : list (option rule)) (idx : Z) (o : fopts) (res : fresult) : Prop :=
  (exists pre u post o1 b opts st, l = pre ++ Some u :: post /\ passed e i pre o o1 /\
     rule_match e u i o1 = Some (b, opts) /\ decides (u_cmd u) b = Some st /\
     res = mkRes st (idx + Z.of_nat (length pre) + 1)
             (match st with msAccepted => apply_options opts i o1 | _ => o1 end)) \/
  (exists o1, passed e i l o o1 /\ res = mkRes msIgnored 0 o1).

(** Some part of [s] matches the mask [param]. *)
Definition inside (param s : list Z) : Prop := exists a m b, s = a ++ m ++ b /\ glob wild_char param m.

(** A word of a rule without field, sign or operator. *)
Definition simple_text (w : list Z) : Prop :=
  plain_word w /\ visible w /\ ~ In 58 w /\ ~ In (hd 0 w) [45; 43; 64; 36; 60; 62; 61].

(** Failed updates of a feed, at the given times. *)
Fixpoint fail_times (times : list Z) (f : feed) : feed :=
  match times with [] => f | t :: r => fail_times r (next_update t false f) end.

(** No blanks and no rule separators in a word. *)
Definition clean (w : list Z) : Prop := Forall (fun c => ~ In c [9; 10; 13; 32; 37]) w.

(** ** References *)

(** The part of [s] a wildcard group (start, length) stands for. *)
Definition group_text (s : list Z) (p : Z * Z) : list Z :=
  firstn (Z.to_nat (snd p)) (skipn (Z.to_nat (fst p)) s).

(** What the name inside a reference stands for: the season or the episode of the item (in any
    case of letters), or a number: the group with this number, counted from 1. *)
Definition ref_means (i : fitem) (refs : list (list Z)) (var v : list Z) : Prop :=
  (map lc var = str "season" /\ v = match i_season i with Some s => s | None => [] end) \/
  (map lc var = str "episode" /\ v = match i_episode i with Some s => s | None => [] end) \/
  (exists n, Z.of_nat n + 1 < 2 ^ 31 /\ var = zdec (Z.of_nat n + 1) /\ nth_error refs n = Some v).
(** An option value with references: plain pieces and references; how it is written and what it
    becomes. *)
Inductive expands (i : fitem) (refs : list (list Z)) : nat -> list Z -> list Z -> Prop :=
| ex_text t : ~ In 36 t -> expands i refs 0 t t
| ex_ref n t var v rest out : ~ In 36 t -> ref_means i refs var v -> ~ In 36 v ->
    expands i refs n rest out ->
    expands i refs (S n) (t ++ str "${" ++ var ++ str "}" ++ rest) (t ++ v ++ out).

(** ** Options *)
Definition kept_or {A} (old : A) (given : option A) (now : A) : Prop :=
  (forall x, given = Some x -> now = x) /\ (given = None -> now = old).
(** What a rule's options make of the options of an item: what the rule does not mention
    stays. *)
Definition options_set (r : ropts) (i : fitem) (o o' : fopts) : Prop :=
  kept_or (p_category o) (r_cat r) (p_category o') /\
  kept_or (p_pause o) (r_pause r) (p_pause o') /\
  kept_or (p_dupemode o) (r_mode r) (p_dupemode o') /\
  (exists base plus, kept_or (p_priority o) (r_prio r) base /\ kept_or 0 (r_addprio r) plus /\ p_priority o' = base + plus) /\
  (exists base plus, kept_or (p_dupescore o) (r_score r) base /\ kept_or 0 (r_addscore r) plus /\ p_dupescore o' = base + plus) /\
  (r_rage r = None -> r_tvdb r = None -> r_tvmaze r = None -> r_series r = None ->
     exists key, kept_or (p_dupekey o) (r_key r) key /\
       (r_addkey r = None -> p_dupekey o' = key) /\
       (forall x, r_addkey r = Some x -> key = [] \/ x = [] -> p_dupekey o' = key) /\
       (forall x, r_addkey r = Some x -> key <> [] -> x <> [] -> p_dupekey o' = key ++ str "-" ++ x)).
