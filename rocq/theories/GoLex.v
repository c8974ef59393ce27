(** The Go scanner (package go/scanner, mode 0, no error handler), which /repo/scan.go:18
    uses to read .x files and which also defines the tokens of the emitted Go files.
    Simplification: bytes outside ASCII are not letters here. *)
From Coq Require Export List String Ascii NArith ZArith Bool Lia.
Export ListNotations.
Open Scope char_scope.
Open Scope string_scope.
Open Scope list_scope.

Inductive gtok : Type :=
| GIdent (s : string)
| GKw (s : string)                       (* a keyword of Go *)
| GInt (s : string) | GFloat (s : string) | GImag (s : string)
| GStr (s : string) | GChar (s : string)
| GOp (s : string)                       (* operators and punctuation except ; *)
| GSemi                                  (* written or inserted *)
| GIllegal (c : ascii).

Definition acode (c : ascii) : N := N_of_ascii c.
Definition between (a b : ascii) (c : ascii) : bool := (acode a <=? acode c)%N && (acode c <=? acode b)%N.
Definition nl : ascii := "010"%char.
Definition cr : ascii := "013"%char.
Definition tab : ascii := "009"%char.
Definition dquote : ascii := """"%char.

Definition is_letter (c : ascii) : bool := between "a" "z" c || between "A" "Z" c || Ascii.eqb c "_".
Definition is_digit (c : ascii) : bool := between "0" "9" c.
Definition is_hex (c : ascii) : bool := is_digit c || between "a" "f" c || between "A" "F" c.
Definition is_idchar (c : ascii) : bool := is_letter c || is_digit c.
(** scanner.skipWhitespace; newlines are treated separately. *)
Definition is_blank (c : ascii) : bool := Ascii.eqb c " " || Ascii.eqb c tab || Ascii.eqb c cr.

Definition lower (c : ascii) : ascii := if between "A" "Z" c then ascii_of_N (acode c + 32) else c.
Definition upper (c : ascii) : ascii := if between "a" "z" c then ascii_of_N (acode c - 32) else c.

(** Longest prefix of characters satisfying [p], and the rest. *)
Fixpoint span (p : ascii -> bool) (s : string) : string * string :=
  match s with
  | EmptyString => (EmptyString, EmptyString)
  | String c r => if p c then let '(a, b) := span p r in (String c a, b) else (EmptyString, s)
  end.

Definition keywords : list string :=
  ["break"; "case"; "chan"; "const"; "continue"; "default"; "defer"; "else"; "fallthrough"; "for"; "func"; "go"; "goto";
   "if"; "import"; "interface"; "map"; "package"; "range"; "return"; "select"; "struct"; "switch"; "type"; "var"].
Definition mem (x : string) (l : list string) : bool := existsb (String.eqb x) l.
(** token.Lookup *)
Definition lookup_word (w : string) : gtok := if mem w keywords then GKw w else GIdent w.

(** Whether a newline after the token makes a semicolon. *)
Definition ends_line (t : gtok) : bool :=
  match t with
  | GIdent _ | GInt _ | GFloat _ | GImag _ | GStr _ | GChar _ => true
  | GKw w => mem w ["break"; "continue"; "fallthrough"; "return"]
  | GOp o => mem o [")"; "]"; "}"; "++"; "--"]
  | GSemi | GIllegal _ => false
  end.

(** scanner.digits with a base of at most ten, and of sixteen. *)
Definition is_dec_sep (c : ascii) : bool := is_digit c || Ascii.eqb c "_".
Definition is_hex_sep (c : ascii) : bool := is_hex c || Ascii.eqb c "_".
Definition head_is (p : ascii -> bool) (s : string) : bool := match s with String c _ => p c | EmptyString => false end.
Definition chr (a : ascii) (c : ascii) : bool := Ascii.eqb c a.
Definition lchr (a : ascii) (c : ascii) : bool := Ascii.eqb (lower c) a.
Definition take1 (s : string) : string * string := match s with String c r => (String c EmptyString, r) | EmptyString => (EmptyString, EmptyString) end.
(** If [p] holds of the next character, the characters [f] takes; [true] when it did. *)
Definition opt_part (p : ascii -> bool) (f : string -> string * string) (s : string) : bool * string * string :=
  if head_is p s then let '(a, r) := f s in (true, a, r) else (false, EmptyString, s).

(** scanner.scanNumber; malformed numbers are reported to the error handler only. *)
Definition int_part (s : string) : string * string * (ascii -> bool) :=
  match s with
  | String "0" r =>
      if head_is (fun c => lchr "x" c) r then let '(x, r1) := take1 r in let '(d, r2) := span is_hex_sep r1 in ("0" ++ x ++ d, r2, is_hex_sep)
      else if head_is (fun c => lchr "o" c || lchr "b" c) r
      then let '(x, r1) := take1 r in let '(d, r2) := span is_dec_sep r1 in ("0" ++ x ++ d, r2, is_dec_sep)
      else let '(d, r1) := span is_dec_sep r in ("0" ++ d, r1, is_dec_sep)
  | _ => let '(d, r) := span is_dec_sep s in (d, r, is_dec_sep)
  end%string.
Definition scan_number (s : string) : gtok * string :=
  let '(a, r, digs) := int_part s in
  let '(dot, b, r) := opt_part (chr ".") (fun s => let '(x, r) := take1 s in let '(d, r) := span digs r in ((x ++ d)%string, r)) r in
  let '(ex, c, r) := opt_part (fun c => lchr "e" c || lchr "p" c)
       (fun s => let '(x, r) := take1 s in
                 let '(_, y, r) := opt_part (fun c => chr "+" c || chr "-" c) take1 r in
                 let '(d, r) := span is_dec_sep r in ((x ++ y ++ d)%string, r)) r in
  let '(im, e, r) := opt_part (chr "i") take1 r in
  let lit := (a ++ b ++ c ++ e)%string in
  (if im then GImag lit else if dot || ex then GFloat lit else GInt lit, r).

(** Comments: the rest after a // comment starts with its newline; for /* */, also whether
    it contained a newline. *)
Fixpoint line_comment (s : string) : string :=
  match s with EmptyString => EmptyString | String c r => if Ascii.eqb c nl then s else line_comment r end.
Fixpoint block_comment (s : string) : bool * string :=
  match s with
  | EmptyString => (false, EmptyString)
  | String c r =>
      if Ascii.eqb c "*" && head_is (chr "/") r then (false, match r with String _ r' => r' | EmptyString => EmptyString end)
      else let '(b, r') := block_comment r in (Ascii.eqb c nl || b, r')
  end.

(** Quoted literals after the opening quote [q]: the text up to the closing one. *)
Fixpoint quoted (q : ascii) (s : string) : string * string :=
  match s with
  | EmptyString => (EmptyString, EmptyString)
  | String c r =>
      if Ascii.eqb c nl then (EmptyString, s)
      else if Ascii.eqb c q then (String c EmptyString, r)
      else if Ascii.eqb c "\" then
        match r with
        | String c2 r2 => let '(a, b) := quoted q r2 in (String c (String c2 a), b)
        | EmptyString => (String c EmptyString, EmptyString)
        end
      else let '(a, b) := quoted q r in (String c a, b)
  end.
Fixpoint raw_quoted (s : string) : string * string :=
  match s with
  | EmptyString => (EmptyString, EmptyString)
  | String c r => if Ascii.eqb c "`" then (String c EmptyString, r) else let '(a, b) := raw_quoted r in (String c a, b)
  end.

Definition operators : list string :=
  ["<<="; ">>="; "&^="; "..."; 
   "<<"; ">>"; "&^"; "+="; "-="; "*="; "/="; "%="; "&="; "|="; "^="; "&&"; "||"; "<-"; "++"; "--"; "=="; "!="; "<="; ">="; ":=";
   "+"; "-"; "*"; "/"; "%"; "&"; "|"; "^"; "<"; ">"; "="; "!"; "~"; "("; "["; "{"; ","; "."; ")"; "]"; "}"; ":"].
Fixpoint strip (p s : string) : option string :=
  match p, s with
  | EmptyString, _ => Some s
  | String a p, String b s => if Ascii.eqb a b then strip p s else None
  | String _ _, EmptyString => None
  end.
Fixpoint longest_op (ops : list string) (s : string) : option (string * string) :=
  match ops with
  | [] => None
  | o :: ops => match strip o s with Some r => Some (o, r) | None => longest_op ops s end
  end.

(** scanner.Scan, repeated until the end; [semi] is insertSemi. *)
Fixpoint lex (n : nat) (semi : bool) (s : string) : option (list gtok) :=
  match n with
  | O => None
  | S n =>
      let emit t r := option_map (cons t) (lex n (ends_line t) r) in
      match s with
      | EmptyString => Some (if semi then [GSemi] else [])
      | String c r =>
          if is_blank c then lex n semi r
          else if Ascii.eqb c nl then if semi then option_map (cons GSemi) (lex n false r) else lex n false r
          else if is_letter c then let '(w, r') := span is_idchar s in emit (lookup_word w) r'
          else if is_digit c || (Ascii.eqb c "." && head_is is_digit r) then let '(t, r') := scan_number s in emit t r'
          else if Ascii.eqb c "/" && head_is (chr "/") r then lex n semi (line_comment r)
          else if Ascii.eqb c "/" && head_is (chr "*") r then
            let '(b, r') := block_comment (match r with String _ r => r | EmptyString => EmptyString end) in
            if semi && b then option_map (cons GSemi) (lex n false r') else lex n semi r'
          else if Ascii.eqb c dquote then let '(w, r') := quoted dquote r in emit (GStr (String c w)) r'
          else if Ascii.eqb c "'" then let '(w, r') := quoted "'" r in emit (GChar (String c w)) r'
          else if Ascii.eqb c "`" then let '(w, r') := raw_quoted r in emit (GStr (String c w)) r'
          else if Ascii.eqb c ";" then emit GSemi r
          else match longest_op operators s with
               | Some (o, r') => emit (GOp o) r'
               (* the scanner keeps insertSemi after an illegal character *)
               | None => option_map (cons (GIllegal c)) (lex n semi r)
               end
      end
  end.

Definition go_tokens (s : string) : option (list gtok) := lex (S (String.length s)) false s.
