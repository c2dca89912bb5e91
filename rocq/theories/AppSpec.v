(** Vocabulary for the properties of the command-line tool. *)
From Coq Require Import ZArith Ascii String List Bool.
From Verif Require Import Base StrModel StrSpec.
Import ListNotations.
Open Scope Z_scope.

(** The first value given for a key. *)
Definition first_for {K V} (eqb : K -> K -> bool) (k : K) (l : list (K * V)) : option V :=
  option_map snd (find (fun e => eqb (fst e) k) l).

(** [key:v1|v2|...]. *)
Definition entry_text (e : Z * list bytes) : bytes := itoa (fst e) ++ ":"%char :: join "|" (snd e).

(** A command line as the user thinks of it: options with their values. *)
Definition cmd (gs : list (bytes * list bytes)) : list bytes := concat (map (fun g => ("-"%char :: fst g) :: snd g) gs).
Definition config_word : bytes := str "-configfile".
Definition is_config (g : bytes * list bytes) : bool := StringMatch ("-"%char :: fst g) config_word.

(** The options given, names in upper case; options without values count for nothing. *)
Definition given (gs : list (bytes * list bytes)) : list (bytes * list bytes) :=
  map (fun g => (GetUpper (fst g), snd g))
      (filter (fun g => negb (is_config g) && match snd g with [] => false | _ => true end) gs).
(** The configuration file: the first value of the last such option. *)
Definition first_word (g : bytes * list bytes) : bytes := hd [] (snd g).
Definition chosen (gs : list (bytes * list bytes)) : bytes :=
  last (map first_word (filter is_config gs)) [].

(** What a line of a configuration file says. *)
Inductive meaning := Nothing | Opt (key : bytes) (vals : list bytes) | Item (parts : list bytes).
Definition tab : ascii := "009".
Inductive line_means (s : bytes) : meaning -> Prop :=
| LM_blank : TrimSpaces s = [] -> line_means s Nothing
| LM_note t : TrimSpaces s = "#"%char :: t -> line_means s Nothing
| LM_alone k : TrimSpaces s = "-"%char :: k -> ~ In tab k -> line_means s Nothing
| LM_opt k vs : TrimSpaces s = join tab (("-"%char :: k) :: vs) -> vs <> [] -> last vs [] <> [] ->
    ~ In tab k -> Forall (fun v => ~ In tab v) vs -> line_means s (Opt k vs)
| LM_item c t ps : TrimSpaces s = c :: t -> c <> "#"%char -> c <> "-"%char ->
    c :: t = join ";" ps -> ps <> [] -> last ps [] <> [] -> Forall (fun p => ~ In ";"%char p) ps -> line_means s (Item ps).

Definition config_given (ms : list meaning) : list (bytes * list bytes) :=
  flat_map (fun m => match m with Opt k vs => [(GetUpper k, vs)] | _ => [] end) ms.
Definition config_items (ms : list meaning) : list (list bytes) :=
  flat_map (fun m => match m with Item ps => [ps] | _ => [] end) ms.
