(** Model of /repo/scan.go: the tokens goyacc's parser gets. *)
From Verif Require Import GoLex.
Open Scope string_scope.
Open Scope list_scope.

(** The %token declarations of /repo/xdr.y:25-57. *)
Inductive ytok : Type :=
| KWCONST | KWTYPEDEF | KWENUM | KWSTRUCT | KWUNION | KWSWITCH | KWCASE | KWDEFAULT | KWVOID | KWOPAQUE | KWSTRING
| KWUNSIGNED | KWINT | KWHYPER | KWFLOAT | KWDOUBLE | KWQUADRUPLE | KWBOOL | KWPROGRAM | KWVERSION
| CONST (s : string) | IDENT (s : string)
| YEq | YSemi | YColon | YLt | YGt | YLBrack | YRBrack | YLBrace | YRBrace | YComma | YLParen | YRParen | YStar.

(** /repo/scan.go:51-101, identifiers with a meaning of their own. *)
Definition x_keywords : list (string * ytok) :=
  [("typedef", KWTYPEDEF); ("enum", KWENUM); ("union", KWUNION); ("void", KWVOID); ("string", KWSTRING);
   ("opaque", KWOPAQUE); ("unsigned", KWUNSIGNED); ("int", KWINT); ("hyper", KWHYPER); ("float", KWFLOAT);
   ("double", KWDOUBLE); ("quadruple", KWQUADRUPLE); ("bool", KWBOOL); ("program", KWPROGRAM); ("version", KWVERSION)].
Fixpoint assoc {A} (x : string) (l : list (string * A)) : option A :=
  match l with [] => None | (y, a) :: l => if String.eqb x y then Some a else assoc x l end.

(** /repo/scan.go:28-49: keywords of Go; other ones are not handled. *)
Definition go_keywords : list (string * ytok) :=
  [("const", KWCONST); ("struct", KWSTRUCT); ("type", IDENT "type"); ("switch", KWSWITCH); ("case", KWCASE);
   ("default", KWDEFAULT); ("map", IDENT "map")].
(** /repo/scan.go:103-140. *)
Definition x_ops : list (string * ytok) :=
  [("=", YEq); (":", YColon); ("<", YLt); (">", YGt); ("[", YLBrack); ("]", YRBrack); ("{", YLBrace); ("}", YRBrace);
   (",", YComma); ("(", YLParen); (")", YRParen); ("*", YStar)].

(** /repo/scan.go:17-150 [Lex]; [None] is the panic "token not handled" (146-148). *)
Definition Lex (t : gtok) : option ytok :=
  match t with
  | GKw w => assoc w go_keywords
  | GIdent w => match assoc w x_keywords with Some y => Some y | None => Some (IDENT w) end
  | GOp o => assoc o x_ops
  | GSemi => Some YSemi
  | GInt s => Some (CONST s)
  | GFloat _ | GImag _ | GStr _ | GChar _ | GIllegal _ => None
  end.

Fixpoint all_some {A B} (f : A -> option B) (l : list A) : option (list B) :=
  match l with
  | [] => Some []
  | a :: l => match f a, all_some f l with Some b, Some r => Some (b :: r) | _, _ => None end
  end.

(** All tokens of a source text; [None] if some token makes Lex panic. *)
Definition x_tokens (s : string) : option (list ytok) :=
  match go_tokens s with Some ts => all_some Lex ts | None => None end.
