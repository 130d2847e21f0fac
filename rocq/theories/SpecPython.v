(** Specification: how Python reads the text of an expression.  A reader for
    the part of Python's expression grammar that grf-py prints; whatever it
    does not know it refuses.  Text is a list of character codes.  Written
    from the Python language reference (lexical analysis 2.1-2.6, expressions
    6.2-6.3), without reference to the printing code. *)
From Coq Require Import ZArith List Bool String Ascii.
From Verif Require Import Base PyValue.
Import ListNotations.
Open Scope string_scope.
Open Scope list_scope.
Open Scope Z_scope.

(** ** Lexical analysis *)

Definition digitb (c : Z) : bool := (48 <=? c) && (c <=? 57).
Definition letterb (c : Z) : bool := ((97 <=? c) && (c <=? 122)) || ((65 <=? c) && (c <=? 90)) || (c =? 95).
Definition identb (c : Z) : bool := letterb c || digitb c.
Definition hexval (c : Z) : option Z :=
  if digitb c then Some (c - 48)
  else if (97 <=? c) && (c <=? 102) then Some (c - 87)
  else if (65 <=? c) && (c <=? 70) then Some (c - 55) else None.

(** Blanks and comments are skipped, and newlines where [deep]: between
    brackets. *)
Fixpoint skip (deep comment : bool) (s : bytes) : bytes :=
  match s with
  | [] => []
  | c :: r =>
    if c =? 10 then (if deep then skip deep false r else s)
    else if comment then skip deep true r
    else if c =? 32 then skip deep false r
    else if c =? 35 then skip deep true r
    else s
  end.
Definition ws (deep : bool) (s : bytes) : bytes := skip deep false s.

(** The longest prefix of characters of identifiers. *)
Fixpoint ident (s : bytes) : bytes * bytes :=
  match s with
  | c :: r => if identb c then let (x, r) := ident r in (c :: x, r) else ([], s)
  | [] => ([], [])
  end.

(** Decimal digits; hexadecimal digits. *)
Fixpoint dec (acc : Z) (s : bytes) : Z * bytes :=
  match s with
  | c :: r => if digitb c then dec (10 * acc + (c - 48)) r else (acc, s)
  | [] => (acc, [])
  end.
Fixpoint hex (acc : Z) (s : bytes) : Z * bytes :=
  match s with
  | c :: r => match hexval c with Some d => hex (16 * acc + d) r | None => (acc, s) end
  | [] => (acc, [])
  end.
(** A number is not followed by a letter, a digit or a point. *)
Definition number_end (s : bytes) : bool := match s with c :: _ => negb (identb c || (c =? 46)) | [] => true end.
(** Decimal numbers have no leading zeros (but for 0 itself). *)
Definition number (s : bytes) : option (Z * bytes) :=
  match s with
  | 48 :: 120 :: ((h :: _) as r) =>
      match hexval h with
      | Some _ => let (v, r) := hex 0 r in if number_end r then Some (v, r) else None
      | None => None
      end
  | 48 :: r => if number_end r then Some (0, r) else None
  | c :: _ => if digitb c then let (v, r) := dec 0 s in if number_end r then Some (v, r) else None else None
  | [] => None
  end.

(** Two more quotes: with the first one they open or close a triple-quoted
    literal. *)
Definition opens_triple (q : Z) (s : bytes) : bool :=
  match s with a :: b :: _ => (a =? q) && (b =? q) | _ => false end.
(** The part of a literal up to the closing quote [q] (three of them if
    [triple]).  Escapes other than these are refused, all of them where
    [triple]; so are control characters. *)
Fixpoint quoted (q : Z) (triple : bool) (s : bytes) : option (bytes * bytes) :=
  match s with
  | [] => None
  | c :: r =>
    if c =? 92 then
      if triple then None else
      match r with
      | 120 :: a :: b :: r =>
          match hexval a, hexval b with
          | Some a, Some b => do (x, r) <- quoted q triple r; Some (16 * a + b :: x, r)
          | _, _ => None
          end
      | e :: r =>
          do v <- (if e =? 110 then Some 10 else if e =? 116 then Some 9 else if e =? 114 then Some 13
                   else if e =? 92 then Some 92 else if e =? 39 then Some 39 else if e =? 34 then Some 34 else None);
          do (x, r) <- quoted q triple r; Some (v :: x, r)
      | [] => None
      end
    else if c =? q then
      if triple then
        if opens_triple q r then Some ([], skipn 2 r) else do (x, r) <- quoted q triple r; Some (c :: x, r)
      else Some ([], r)
    else if (c =? 10) && negb triple then None
    else if (c <? 32) && negb (c =? 10) then None
    else do (x, r) <- quoted q triple r; Some (c :: x, r)
  end.

Definition quoteb (c : Z) : bool := (c =? 39) || (c =? 34).

(** A literal of text or bytes: [None] if there is none at this place. *)
Definition bytes_literal (s : bytes) : option (bytes * bytes) :=
  match s with
  | 98 :: q :: r => if quoteb q then
                      if opens_triple q r then None
                      else do (x, r) <- quoted q false r;
                           if forallb (fun c => c <? 256) x then Some (x, r) else None
                    else None
  | _ => None
  end.
Definition text_literal (s : bytes) : option (bytes * bytes) :=
  match s with
  | q :: r => if quoteb q && negb (opens_triple q r) then quoted q false r else None
  | [] => None
  end.
Definition triple_literal (s : bytes) : option (bytes * bytes) :=
  match s with
  | q :: r => if quoteb q && opens_triple q r then quoted q true (skipn 2 r) else None
  | [] => None
  end.

(** Words that are not names. *)
Definition KEYWORDS : list bytes :=
  map txt ["False"; "None"; "True"; "and"; "as"; "assert"; "async"; "await"; "break"; "class"; "continue"; "def";
           "del"; "elif"; "else"; "except"; "finally"; "for"; "from"; "global"; "if"; "import"; "in"; "is"; "lambda";
           "nonlocal"; "not"; "or"; "pass"; "raise"; "return"; "try"; "while"; "with"; "yield"].
Fixpoint same (a b : bytes) : bool :=
  match a, b with
  | [], [] => true
  | x :: a, y :: b => (x =? y) && same a b
  | _, _ => false
  end.
Definition keyword (x : bytes) : bool := existsb (same x) KEYWORDS.
(** A name: not a keyword, not the prefix of a literal. *)
Definition name (s : bytes) : option (bytes * bytes) :=
  match s with
  | c :: _ => if letterb c then
                let (x, r) := ident s in
                if keyword x || match r with c :: _ => quoteb c | [] => false end then None else Some (x, r)
              else None
  | [] => None
  end.

(** ** Expressions *)

(** Literals written next to each other are one. *)
Fixpoint more_bytes (n : nat) (deep : bool) (b : bytes) (s : bytes) : option (bytes * bytes) :=
  match n with
  | O => None
  | S n => match bytes_literal (ws deep s) with
           | Some (x, r) => more_bytes n deep (b ++ x) r
           | None => Some (b, s)
           end
  end.
Fixpoint more_text (n : nat) (deep : bool) (b : bytes) (s : bytes) : option (bytes * bytes) :=
  match n with
  | O => None
  | S n => match text_literal (ws deep s) with
           | Some (x, r) => more_text n deep (b ++ x) r
           | None => Some (b, s)
           end
  end.

(** [n] bounds the depth of the recursion; the length of the text is
    enough.  [expr]: alternatives joined by |; [unary]: a minus sign before a
    number; [atom]: literals, names, brackets; [trailer]: what follows a name:
    .name or (arguments). *)
Fixpoint expr (n : nat) (deep : bool) (s : bytes) {struct n} : option (py * bytes) :=
  match n with
  | O => None
  | S n => do (a, s) <- unary n deep s; alternatives n deep a s
  end
with alternatives (n : nat) (deep : bool) (a : py) (s : bytes) {struct n} : option (py * bytes) :=
  match n with
  | O => None
  | S n => match ws deep s with
           | 124 :: r => do (b, r) <- unary n deep r; alternatives n deep (YOr a b) r
           | _ => Some (a, s)
           end
  end
with unary (n : nat) (deep : bool) (s : bytes) {struct n} : option (py * bytes) :=
  match n with
  | O => None
  | S n => match ws deep s with
           | 45 :: r => do (v, r) <- number (ws deep r); Some (YInt (- v), r)
           | r => atom n deep r
           end
  end
with atom (n : nat) (deep : bool) (s : bytes) {struct n} : option (py * bytes) :=
  match n with
  | O => None
  | S n =>
    match s with
    | [] => None
    | c :: r =>
      if c =? 40 then
        match ws true r with
        | 41 :: r => Some (YTuple [], r)
        | r => do (e, r) <- expr n true r;
               match ws true r with
               | 41 :: r => Some (e, r)
               | 44 :: r => do (l, r) <- items n 41 r; Some (YTuple (e :: l), r)
               | _ => None
               end
        end
      else if c =? 91 then do (l, r) <- items n 93 r; Some (YList l, r)
      else if c =? 123 then do (l, r) <- entries n r; Some (YDict l, r)
      else if digitb c then do (v, r) <- number s; Some (YInt v, r)
      else if quoteb c then
        match triple_literal s with
        | Some (x, r) => match text_literal (ws deep r), triple_literal (ws deep r) with
                         | None, None => Some (YText x, r)
                         | _, _ => None
                         end
        | None => do (x, r) <- text_literal s; do (x, r) <- more_text n deep x r; Some (YStr x, r)
        end
      else match bytes_literal s with
           | Some (x, r) => do (x, r) <- more_bytes n deep x r; Some (YBytes x, r)
           | None =>
             let (x, r) := ident s in
             if same x (txt "None") then Some (YNone, r)
             else if same x (txt "True") then Some (YBool true, r)
             else if same x (txt "False") then Some (YBool false, r)
             else do (x, r) <- name s; trailer n deep (YName x) r
           end
    end
  end
with trailer (n : nat) (deep : bool) (a : py) (s : bytes) {struct n} : option (py * bytes) :=
  match n with
  | O => None
  | S n => match ws deep s with
           | 46 :: r => do (x, r) <- name (ws deep r); trailer n deep (YAttr a x) r
           | 40 :: r => do (l, r) <- arguments n false r; trailer n deep (YCall a l) r
           | 91 :: _ => None
           | _ => Some (a, s)
           end
  end
(** Expressions separated by commas, up to the closing bracket. *)
with items (n : nat) (close : Z) (s : bytes) {struct n} : option (list py * bytes) :=
  match n with
  | O => None
  | S n =>
    match ws true s with
    | [] => None
    | c :: r =>
      if c =? close then Some ([], r)
      else do (e, r) <- expr n true (c :: r);
           match ws true r with
           | [] => None
           | c :: r => if c =? close then Some ([e], r)
                       else if c =? 44 then do (l, r) <- items n close r; Some (e :: l, r)
                       else None
           end
    end
  end
(** key: value, ... up to the closing brace. *)
with entries (n : nat) (s : bytes) {struct n} : option (list (py * py) * bytes) :=
  match n with
  | O => None
  | S n =>
    match ws true s with
    | 125 :: r => Some ([], r)
    | r => do (k, r) <- expr n true r;
           match ws true r with
           | 58 :: r =>
             do (v, r) <- expr n true r;
             match ws true r with
             | 125 :: r => Some ([(k, v)], r)
             | 44 :: r => do (l, r) <- entries n r; Some ((k, v) :: l, r)
             | _ => None
             end
           | _ => None
           end
    end
  end
(** Arguments: name=value or value, none of the latter after one of the
    former. *)
with arguments (n : nat) (named : bool) (s : bytes) {struct n} : option (list (bytes * py) * bytes) :=
  match n with
  | O => None
  | S n =>
    match ws true s with
    | 41 :: r => Some ([], r)
    | r =>
      do (x, r) <- match name r with
                   | Some (x, r') => match ws true r' with
                                     | 61 :: r'' => if match r'' with 61 :: _ => true | _ => false end then None else Some (x, r'')
                                     | _ => Some ([], r)
                                     end
                   | None => Some ([], r)
                   end;
      do! (match x with [] => negb named | _ => true end);
      do (v, r) <- expr n true r;
      match ws true r with
      | 41 :: r => Some ([(x, v)], r)
      | 44 :: r => do (l, r) <- arguments n (match x with [] => named | _ => true end) r; Some ((x, v) :: l, r)
      | _ => None
      end
    end
  end.

(** A line of a program that is one expression, read with depth [n]. *)
Definition read (n : nat) (s : bytes) : option py :=
  do (e, r) <- expr n false s;
  match ws false r with [] => Some e | _ => None end.
(** The text [s] is the expression [v].  ([PyMonoProofs.Reads_fun]: of no
    other.) *)
Definition Reads (s : bytes) (v : py) : Prop := exists n, read n s = Some v.

(** [s] is read as [v] between brackets, before a comma, a colon, a closing
    bracket or the end, with depth six for every character. *)
Definition Inside (s : bytes) (v : py) : Prop :=
  forall n rest,
    (match ws true rest with c :: _ => c = 41 \/ c = 44 \/ c = 58 \/ c = 93 \/ c = 125 | [] => True end) ->
    (6 * List.length s <= n)%nat ->
    expr n true (s ++ rest) = Some (v, rest).

(** Values of literals. *)
Definition asciib (c : Z) : bool := (0 <=? c) && (c <? 128).
Definition byteb (c : Z) : bool := (0 <=? c) && (c <? 256).
Fixpoint literal (v : py) : bool :=
  match v with
  | YNone | YBool _ | YInt _ => true
  | YBytes b => forallb byteb b
  | YStr s => forallb asciib s
  | YTuple l | YList l => forallb literal l
  | YDict l => forallb (fun e => literal (fst e) && literal (snd e)) l
  | _ => false
  end.

(** Values whose repr is an expression of this grammar: literals, names, and
    calls of names or attributes of names. *)
Definition good_name (x : bytes) : bool :=
  match x with c :: _ => letterb c && forallb identb x && negb (keyword x) | [] => false end.
(** No positional argument after a keyword. *)
Fixpoint ordered (named : bool) (l : list bytes) : bool :=
  match l with
  | [] => true
  | x :: r => match x with [] => negb named && ordered false r | _ => ordered true r end
  end.
Definition head_ok (v : py) : bool :=
  match v with
  | YName x => good_name x
  | YAttr (YName x) y => good_name x && good_name y
  | _ => false
  end.
Fixpoint wfp (v : py) : bool :=
  match v with
  | YNone | YBool _ | YInt _ => true
  | YBytes b => forallb byteb b
  | YStr s => forallb asciib s
  | YText _ | YOr _ _ => false
  | YTuple l | YList l => forallb wfp l
  | YDict l => forallb (fun e => wfp (fst e) && wfp (snd e)) l
  | YName x => good_name x
  | YAttr e x => head_ok v
  | YCall f l => head_ok f && ordered false (map fst l) && forallb (fun e => match fst e with [] => true | x => good_name x end && wfp (snd e)) l
  end.

(** ** Calls *)

(** A parameter: its name, whether it is keyword-only, its default. *)
Definition param : Type := bytes * bool * option py.
Fixpoint lookup (x : bytes) (l : list (bytes * py)) : option py :=
  match l with [] => None | (y, v) :: r => if same x y then Some v else lookup x r end.
Fixpoint distinct (l : list bytes) : bool :=
  match l with [] => true | x :: r => negb (existsb (same x) r) && distinct r end.
Definition positionals (args : list (bytes * py)) : list py := map snd (filter (fun a => match fst a with [] => true | _ => false end) args).
Definition keywords (args : list (bytes * py)) : list (bytes * py) := filter (fun a => match fst a with [] => false | _ => true end) args.
(** The values of the parameters; None: a TypeError. *)
Fixpoint assign (ps : list param) (pos : list py) (kws : list (bytes * py)) : option (list py) :=
  match ps with
  | [] => match pos with [] => Some [] | _ => None end
  | (x, kwonly, default) :: ps =>
      match pos with
      | v :: pos => if kwonly || existsb (same x) (map fst kws) then None else do l <- assign ps pos kws; Some (v :: l)
      | [] => do v <- match lookup x kws with Some v => Some v | None => default end;
              do l <- assign ps [] kws; Some (v :: l)
      end
  end.
Definition call (ps : list param) (args : list (bytes * py)) : option (list py) :=
  let kws := keywords args in
  do! (distinct (map fst kws) && forallb (fun a => existsb (same (fst a)) (map (fun p => fst (fst p)) ps)) kws);
  assign ps (positionals args) kws.
