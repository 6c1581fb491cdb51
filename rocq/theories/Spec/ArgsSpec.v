(** How the words of a command line are written (C117), independently of the parser. *)
From Verif Require Import Model.Base Model.Main Model.Args.
Open Scope string_scope.
Open Scope list_scope.

Definition begins (p s : string) : Prop := exists r, s = (p ++ r)%string.
Definition no_equals (s : string) : Prop := forall a b, s <> (a ++ "=" ++ b)%string.
Definition letter (c : Ascii.ascii) : string := String "-" (String c "").

Section Words.
Variable negative : string -> bool.
Variable valued : opt -> bool.
Variable os : options.

(** [p] names the option [o], called [n]: it is the name, or the beginning of a long name and of no other one. *)
Definition names (p n : string) (o : opt) : Prop :=
  In (n, o) os /\ (p = n \/ ~ In p (dkeys os) /\ begins "--" p /\ begins p n /\ forall n' o', In (n', o') os -> begins p n' -> n' = n).
(** [w] could be meant as an option: the part before an equals sign is the name of one, or a beginning of a long name; or the first
    letter after the dash is an option. *)
Definition touches (w : string) : Prop :=
  exists n o p, In (n, o) os /\ (p = w /\ no_equals w \/ no_equals p /\ exists e, w = (p ++ "=" ++ e)%string) /\
    (n = p \/ begins "--" p /\ begins p n \/ exists c e, c <> "-"%char /\ w = (letter c ++ e)%string /\ n = letter c).
(** [w] is not taken for an option. *)
Definition plain (w : string) : Prop :=
  w <> "--" /\ (~ begins "-" w \/ w = "-" \/ (negative w = true \/ exists a b, w = (a ++ " " ++ b)%string) /\ ~ touches w).

(** Letters after one dash: options without value, and in the end perhaps one with its value (after an equals sign, if there is one), or
    one whose value is the next word. *)
Inductive cluster : string -> list (opt * string) -> option opt -> Prop :=
| cl_last c o : In (letter c, o) os -> valued o = false -> cluster (String c "") [(o, "")] None
| cl_flag c o s l p : In (letter c, o) os -> valued o = false -> cluster s l p -> cluster (String c s) ((o, "") :: l) p
| cl_value c o c' v : In (letter c, o) os -> valued o = true -> c' <> "="%char -> cluster (String c (String c' v)) [(o, String c' v)] None
| cl_equals c o v : In (letter c, o) os -> valued o = true -> cluster (String c ("=" ++ v)) [(o, v)] None
| cl_next c o : In (letter c, o) os -> valued o = true -> cluster (String c "") [] (Some o).

(** Words that belong together and the options, with their values, that they give. *)
Inductive group : list string -> list (opt * string) -> Prop :=
| g_flag w n o : no_equals w -> names w n o -> valued o = false -> group [w] [(o, "")]
| g_value w n o v : no_equals w -> names w n o -> valued o = true -> plain v -> group [w; v] [(o, v)]
| g_equals p n o v : no_equals p -> names p n o -> valued o = true -> group [(p ++ "=" ++ v)%string] [(o, v)]
| g_letters s l : cluster s l None -> group [String "-" s] l
| g_letters_value s l o v : cluster s l (Some o) -> plain v -> group [String "-" s; v] (l ++ [(o, v)]).
Inductive line : list string -> list (opt * string) -> Prop :=
| ln_nil : line [] []
| ln_cons ws l ws' l' : group ws l -> line ws' l' -> line (ws ++ ws') (l ++ l').
End Words.

(** The usage: options that have a value; the options in front of the command and those of each command. *)
Definition has_value (o : opt) : bool := match o with OConfig | OOutput | OPlan => true | OHelp | OVerbose | OTruncate | OCreate => false end.
Definition usage : options := [("-h", OHelp); ("--help", OHelp); ("--verbose", OVerbose); ("-v", OVerbose); ("-c", OConfig); ("--config", OConfig)].
Definition usage_plan : options := [("-h", OHelp); ("--help", OHelp); ("-o", OOutput); ("--output", OOutput)].
Definition usage_sample : options := [("-h", OHelp); ("--help", OHelp); ("-p", OPlan); ("--plan", OPlan); ("--truncate", OTruncate); ("--create", OCreate)].
Definition usage_subset : options := [("-h", OHelp); ("--help", OHelp); ("--truncate", OTruncate); ("--create", OCreate)].

(** The options have these values in the end. *)
Definition last_value (o : opt) (l : list (opt * string)) (v : option string) : Prop :=
  match v with
  | None => forall x, ~ In (o, x) l
  | Some x => exists a b, l = a ++ (o, x) :: b /\ forall y, ~ In (o, y) b
  end.
Inductive values (o : opt) : list (opt * string) -> list string -> Prop :=
| vs_nil : values o [] []
| vs_same x l vs : values o l vs -> values o ((o, x) :: l) (x :: vs)
| vs_other o' x l vs : o' <> o -> values o l vs -> values o ((o', x) :: l) vs.
Definition switched (o : opt) (l : list (opt * string)) (b : bool) : Prop := b = true <-> exists x, In (o, x) l.

(** The command line says that the program is to do [a]. *)
Definition says (negative : string -> bool) (argv : list string) (a : args) : Prop :=
  exists ws l c ws' l', argv = ws ++ c :: ws' /\ line negative has_value usage ws l /\ (forall x, ~ In (OHelp, x) (l ++ l')) /\ values OConfig l (ar_config a) /\
    match ar_action a with
    | APlan output => c = "plan" /\ line negative has_value usage_plan ws' l' /\ last_value OOutput l' output
    | ASample plan truncate create =>
        c = "sample" /\ line negative has_value usage_sample ws' l' /\ (last_value OPlan l' (Some plan) \/ last_value OPlan l' None /\ plan = "plan.yaml") /\
        switched OTruncate l' truncate /\ switched OCreate l' create
    | ASubset truncate create =>
        c = "subset" /\ line negative has_value usage_subset ws' l' /\ switched OTruncate l' truncate /\ switched OCreate l' create
    end.

(** The line asks for help: among the options before the command, whatever follows them (but a word beginning with [--=] is an error in
    any case), or among those of the command. *)
Definition wants_help (negative : string -> bool) (argv : list string) : Prop :=
  (exists ws l rest x, argv = ws ++ rest /\ line negative has_value usage ws l /\ In (OHelp, x) l /\ forall w, In w rest -> ~ begins "--=" w) \/
  exists ws l c os ws' l' x, argv = ws ++ c :: ws' /\ line negative has_value usage ws l /\ In (c, os) [("plan", usage_plan); ("sample", usage_sample); ("subset", usage_subset)] /\
    line negative has_value os ws' l' /\ In (OHelp, x) l'.
(** [w] may ask for help: it is [--help], shortened or not, or there is an [h] among its letters. *)
Definition asks_help (w : string) : Prop := exists a b, w = String "-" (a ++ "h" ++ b).
(** [w] is [--truncate] or a beginning of it that says which option is meant; the same for [--create]. *)
Definition means_truncate (w : string) : Prop := begins "--t" w /\ begins w "--truncate".
Definition means_create (w : string) : Prop := begins "--c" w /\ begins w "--create".
