(** Model of the command line's words: /repo/subsetter/__main__.py:31-98, 218-250, and of Python's [argparse] (as in 3.11.10) as far as that
    code uses it.  Left out: the texts printed; the verbosity, which changes only what is logged, is counted but not used. *)
From Verif Require Import Model.Base Model.Value Model.Names Model.PlanModel Model.Metadata Model.Planner Model.Filters Model.Multiply
  Model.Materialize Model.Dest Model.Output Model.Sampler Model.Config Model.PlanIO Model.ConfigIO Model.Main.
Open Scope string_scope.
Open Scope list_scope.

(** __main__.py:31-87  the options; [-h] is [argparse]'s own *)
Inductive opt := OHelp | OVerbose | OConfig | OOutput | OPlan | OTruncate | OCreate.
#[export] Instance EqDec_opt : EqDec opt.
Proof. intros x y. decide equality. Defined.
(** [action="append"] and [action="store"] take one value, the other actions none.  (__main__.py:33-87) *)
Definition takes_value (o : opt) : bool := match o with OConfig | OOutput | OPlan => true | _ => false end.

(** The options of a parser, by name.  (__main__.py:69-82, 31-40, 43-65, 89-97) *)
Definition options := dict string opt.
Definition top_options : options := [("-h", OHelp); ("--help", OHelp); ("--verbose", OVerbose); ("-v", OVerbose); ("-c", OConfig); ("--config", OConfig)].
Definition plan_options : options := [("-h", OHelp); ("--help", OHelp); ("-o", OOutput); ("--output", OOutput)].
Definition sample_options : options := [("-h", OHelp); ("--help", OHelp); ("-p", OPlan); ("--plan", OPlan); ("--truncate", OTruncate); ("--create", OCreate)].
Definition subset_options : options := [("-h", OHelp); ("--help", OHelp); ("--truncate", OTruncate); ("--create", OCreate)].

(** [s.split("=", 1)], if there is an equals sign.  (__main__.py:98, argparse) *)
Fixpoint split_equals (s : string) : option (string * string) :=
  match s with
  | EmptyString => None
  | String c s' => if Ascii.eqb c "="%char then Some (EmptyString, s')
                   else match split_equals s' with Some (a, b) => Some (String c a, b) | None => None end
  end.
Fixpoint has_space (s : string) : bool := match s with EmptyString => false | String c s' => Ascii.eqb c " "%char || has_space s' end.

(** What a word is taken for: a plain word; an option with the text attached to it, if any, and whether there is an equals sign in
    front of that text; something like an unknown option; or the beginning
    of several options.  (__main__.py:98, argparse: _parse_optional) *)
Inductive kind := KWord | KOption (name : string) (o : opt) (attached : option (bool * string)) | KUnknown | KAmbiguous.

Section Parser.
(** __main__.py:98: [argparse]'s test for negative numbers, [^-\d+$|^-\d*\.\d+$]. *)
Variable negative : string -> bool.

(** __main__.py:98 (argparse): _get_option_tuples *)
Definition option_tuples (os : options) (w : string) : list (string * opt * option (bool * string)) :=
  match w with
  | String _ (String c2 e) =>
      if Ascii.eqb c2 "-"%char then
        let '(p, e) := match split_equals w with Some (p, e) => (p, Some (true, e)) | None => (w, None) end in
        map (fun no => (fst no, snd no, e)) (filter (fun no => String.prefix p (fst no)) os)
      else
        flat_map (fun no => if String.eqb (fst no) (String "-" (String c2 "")) then [(fst no, snd no, Some (false, e))]
                            else if String.prefix w (fst no) then [(fst no, snd no, None)] else []) os
  | _ => []
  end.
(** __main__.py:98 (argparse): _parse_optional *)
Definition classify (os : options) (w : string) : kind :=
  match w with
  | EmptyString => KWord
  | String c1 w' =>
      if negb (Ascii.eqb c1 "-"%char) then KWord
      else match dget os w with
           | Some o => KOption w o None
           | None =>
               if String.eqb w' "" then KWord
               else
                 let exact := match split_equals w with
                              | Some (n, e) => match dget os n with Some o => Some (KOption n o (Some (true, e))) | None => None end
                              | None => None
                              end in
                 match exact with
                 | Some k => k
                 | None =>
                     match option_tuples os w with
                     | [(n, o, e)] => KOption n o e
                     | _ :: _ :: _ => KAmbiguous
                     | [] => if negative w || has_space w then KWord else KUnknown
                     end
                 end
           end
  end.

(** Why parsing ends the program: help was asked for (status 0) or the line is wrong (status 2).  (__main__.py:98, argparse) *)
Inductive args_exn := AxHelp | AxUsage.
Notation ares := (res args_exn).

(** __main__.py:98 (argparse): consume_optional: an option without text attached: done with, or its value is to come *)
Definition bare (o : opt) : list (opt * string) * option opt * bool := if takes_value o then ([], Some o, false) else ([(o, "")], None, false).
(** __main__.py:98 (argparse): consume_optional, the loop over an option written with one dash and the text attached to it, which may be further
    options' letters.  [sep]: the text follows an equals sign.  The result: the options with their values, an option whose value is the
    next word, and whether there was a letter that is no option. *)
Fixpoint letters (os : options) (o : opt) (sep : bool) (e : string) : ares (list (opt * string) * option opt * bool) :=
  if takes_value o then Ok ([(o, e)], None, false)
  else match e with
       | EmptyString => Err AxUsage
       | String c e' =>
           if sep || Ascii.eqb c "-"%char then Err AxUsage
           else match dget os (String "-" (String c "")) with
                | None => Ok ([(o, "")], None, true)
                | Some o' =>
                    let* (l, next, x) := match e' with
                                         | EmptyString => Ok (bare o')
                                         | String c' e'' => if Ascii.eqb c' "="%char then letters os o' true e'' else letters os o' false e'
                                         end in
                    Ok ((o, "") :: l, next, x)
                end
       end.
(** A name with two dashes.  (__main__.py:98, argparse) *)
Definition long_name (n : string) : bool := String.prefix "--" n.
(** __main__.py:98 (argparse): consume_optional up to the reading of the next word *)
Definition consume (os : options) (n : string) (o : opt) (e : option (bool * string)) : ares (list (opt * string) * option opt * bool) :=
  match e with
  | None => Ok (bare o)
  | Some (sep, e) => if long_name n then (if takes_value o then Ok ([(o, e)], None, false) else Err AxUsage) else letters os o sep e
  end.
(** __main__.py:98 (argparse): take_action; asking for help ends the program *)
Definition given (l : list (opt * string)) : ares (list (opt * string)) :=
  if existsb (fun ov => eqb (fst ov) OHelp) l then Err AxHelp else Ok l.

(** __main__.py:98 (argparse): parse_known_args from the first word on.  [command]: this parser has a command to find, which gets all words that follow
    it.  The result: the options given, whether there was a word that nothing is done with, and the command with its words. *)
Fixpoint parse_words (os : options) (command : bool) (ws : list string)
  : ares (list (opt * string) * bool * option (string * list string)) :=
  match ws with
  | [] => Ok ([], false, None)
  | w :: rest =>
      if String.eqb w "--" then Ok ([], true, if command then Some (w, rest) else None)
      else match classify os w with
           | KAmbiguous => Err AxUsage
           | KWord =>
               if command then Ok ([], false, Some (w, rest))
               else let* (l, _, c) := parse_words os command rest in Ok (l, true, c)
           | KUnknown => let* (l, _, c) := parse_words os command rest in Ok (l, true, c)
           | KOption n o e =>
               let* (l, next, x) := consume os n o e in
               match next with
               | None =>
                   let* l := given l in
                   let* (l', x', c) := parse_words os command rest in Ok (l ++ l', x || x', c)
               | Some o' =>
                   match rest with
                   | w' :: rest' =>
                       if negb (String.eqb w' "--") && match classify os w' with KWord => true | _ => false end then
                         let* l := given (l ++ [(o', w')]) in
                         let* (l', x', c) := parse_words os command rest' in Ok (l ++ l', x || x', c)
                       else Err AxUsage
                   | [] => Err AxUsage
                   end
               end
           end
  end.
(** __main__.py:98 (argparse): the words are classified, up to a [--], before any of them is acted on *)
Fixpoint ambiguous (os : options) (ws : list string) : bool :=
  match ws with
  | [] => false
  | w :: rest => if String.eqb w "--" then false
                 else match classify os w with KAmbiguous => true | _ => ambiguous os rest end
  end.
Definition parse_with (os : options) (command : bool) (ws : list string) : ares (list (opt * string) * bool * option (string * list string)) :=
  if ambiguous os ws then Err AxUsage else parse_words os command ws.

(** The value an option has in the end: the last one given; all that were given ([append]).  (__main__.py:33-87) *)
Definition last_given (o : opt) (l : list (opt * string)) : option string :=
  fold_left (fun a ov => if eqb (fst ov) o then Some (snd ov) else a) l None.
Definition all_given (o : opt) (l : list (opt * string)) : list string := flat_map (fun ov => if eqb (fst ov) o then [snd ov] else []) l.
Definition is_given (o : opt) (l : list (opt * string)) : bool := existsb (fun ov => eqb (fst ov) o) l.

(** __main__.py:83-97  the parsers of the commands *)
Definition command_options (c : string) : option options :=
  if String.eqb c "plan" then Some plan_options
  else if String.eqb c "sample" then Some sample_options
  else if String.eqb c "subset" then Some subset_options else None.
Definition command_action (c : string) (l : list (opt * string)) : action :=
  if String.eqb c "plan" then APlan (last_given OOutput l)
  else if String.eqb c "sample"
  then ASample (match last_given OPlan l with Some p => p | None => "plan.yaml" end) (is_given OTruncate l) (is_given OCreate l)
  else ASubset (is_given OTruncate l) (is_given OCreate l).
(** __main__.py:68-98  _parse_args *)
Definition parse_args (argv : list string) : ares args :=
  let* (l, extra, command) := parse_with top_options true argv in
  match command with
  | None => Err AxUsage                                                             (* 84: required=True *)
  | Some (c, ws) =>
      match command_options c with
      | None => Err AxUsage
      | Some os =>
          let* (l', extra', _) := parse_with os false ws in
          if extra || extra' then Err AxUsage else Ok (mkArgs (all_given OConfig l) (command_action c l'))
      end
  end.

(** __main__.py:218-250  the program, given what [main] does after the arguments were parsed; the exit status *)
Definition program (main : args -> cli -> cli * Z) (argv : list string) (s : cli) : cli * Z :=
  match parse_args argv with
  | Ok a => main a s
  | Err AxHelp => (s, 0%Z)
  | Err AxUsage => (s, 2%Z)
  end.
End Parser.
