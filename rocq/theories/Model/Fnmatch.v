(** Python's [fnmatch.fnmatch] (3.11, on systems where [os.path.normcase] changes nothing), with which
    /repo/subsetter/metadata.py:86-92 matches the names of tables with the patterns of the configuration.
    [tools/fnmatch_check.py] compares this file with the standard library. *)
From Verif Require Import Model.Base.
Open Scope string_scope.
Open Scope list_scope.

(** What a pattern consists of.  (metadata.py:90) *)
Inductive item := One (c : ascii) | Range (lo hi : ascii).
Inductive piece := Star | Any | Char (c : ascii) | Within (negated : bool) (items : list item).

(** What stands before the next "]", and what comes after it.  (metadata.py:90) *)
Fixpoint upto (s : string) : option (string * string) :=
  match s with
  | EmptyString => None
  | String c r => if Ascii.eqb c "]" then Some ("", r)
                  else match upto r with Some (a, b) => Some (String c a, b) | None => None end
  end.
(** The "]" that ends a set is not the first character in it.  (metadata.py:90) *)
Definition body (s : string) : option (string * string) :=
  match s with
  | EmptyString => None
  | String c r => match upto r with Some (a, b) => Some (String c a, b) | None => None end
  end.
(** The order of characters that ranges follow.  (metadata.py:90) *)
Definition before (a b : ascii) : bool := N.ltb (N_of_ascii a) (N_of_ascii b).
(** The characters and ranges of a set, from the left.  (metadata.py:90) *)
Fixpoint items_of (s : string) : list item :=
  match s with
  | EmptyString => []
  | String c (String d r as s') =>
      if Ascii.eqb d "-" then
        match r with
        | String e r' => Range c e :: items_of r'
        | EmptyString => One c :: items_of s'
        end
      else One c :: items_of s'
  | String c EmptyString => [One c]
  end.
(** A range that runs backwards contains nothing.  (metadata.py:90) *)
Definition nonempty (i : item) : bool := match i with One _ => true | Range a b => negb (before b a) end.
(** Empty ranges are removed from the text of a set before the translation looks for "!" as its first character.  (metadata.py:90) *)
Definition set_piece (negated : bool) (s : string) : piece :=
  let l := filter nonempty (items_of s) in
  if negated then Within true l
  else match l with
       | One c :: l' => if Ascii.eqb c "!" then Within true l' else Within false l
       | Range c e :: l' => if Ascii.eqb c "!" then Within true (One "-" :: One e :: l') else Within false l
       | [] => Within false l
       end.
(** The set that begins after "[", if one does, and what comes after it.  (metadata.py:90) *)
Definition set_of_pattern (s : string) : option (piece * string) :=
  match s with
  | String c r =>
      if Ascii.eqb c "!" then match body r with Some (a, b) => Some (set_piece true a, b) | None => None end
      else match body s with Some (a, b) => Some (set_piece false a, b) | None => None end
  | EmptyString => None
  end.
(** [fnmatch.translate]; the fuel is at least the length of the pattern.  (metadata.py:90) *)
Fixpoint pieces (fuel : nat) (s : string) : list piece :=
  match fuel, s with
  | S f, String c r =>
      if Ascii.eqb c "*" then Star :: pieces f r
      else if Ascii.eqb c "?" then Any :: pieces f r
      else if Ascii.eqb c "[" then match set_of_pattern r with
                                    | Some (p, r') => p :: pieces f r'
                                    | None => Char c :: pieces f r
                                    end
      else Char c :: pieces f r
  | _, _ => []
  end.

(** [re.match] of the translation.  (metadata.py:90) *)
Definition item_has (c : ascii) (i : item) : bool :=
  match i with One d => Ascii.eqb c d | Range a b => negb (before c a) && negb (before b c) end.
(** The characters a piece stands for.  (metadata.py:90) *)
Definition piece_has (p : piece) (c : ascii) : bool :=
  match p with
  | Star | Any => true
  | Char d => Ascii.eqb c d
  | Within negated l => xorb negated (existsb (item_has c) l)
  end.
(** Pieces read from the left; a star tries every length.  (metadata.py:90) *)
Fixpoint pieces_match (ps : list piece) (s : string) : bool :=
  match ps with
  | [] => match s with EmptyString => true | _ => false end
  | Star :: ps' =>
      (fix star (s : string) : bool :=
         pieces_match ps' s || match s with EmptyString => false | String _ r => star r end) s
  | p :: ps' => match s with EmptyString => false | String c r => piece_has p c && pieces_match ps' r end
  end.
(** [fnmatch.fnmatch(name, pattern)].  (metadata.py:90) *)
Definition fnmatch (name pattern : string) : bool := pieces_match (pieces (String.length pattern) pattern) name.
