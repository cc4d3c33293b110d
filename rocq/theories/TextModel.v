(** Text: strings, numbers and the parser combinators of the [combine] crate the SDP parser is written in.

    A string is the list of its code points ([Z]).  A parser of combine 4.6 either succeeds or fails, and in both
    cases tells whether it has consumed input ("commit") or not ("peek"): alternatives, optional parts and
    repetitions only go on after a failure that consumed nothing.  Error texts are left out. *)
From Coq Require Import String Ascii.
From Verif Require Import Base.

Definition str := list Z.
(** a literal *)
Definition T (s : string) : str := map (fun c => Z.of_N (N_of_ascii c)) (list_ascii_of_string s).
Fixpoint seqb (a b : str) : bool :=
  match a, b with
  | [], [] => true
  | x :: a, y :: b => (x =? y) && seqb a b
  | _, _ => false
  end.
(** Vec::join *)
Fixpoint join (sep : str) (l : list str) : str :=
  match l with [] => [] | [x] => x | x :: r => x ++ sep ++ join sep r end.

(** ** Characters *)
Definition is_digit (c : Z) : bool := (48 <=? c) && (c <=? 57).
Definition is_upper (c : Z) : bool := (65 <=? c) && (c <=? 90).
Definition is_lower (c : Z) : bool := (97 <=? c) && (c <=? 122).
(** char::is_ascii_alphanumeric *)
Definition ascii_alnum (c : Z) : bool := is_digit c || is_upper c || is_lower c.
(** char::to_digit: the value of a digit in base 10 or 16 *)
Definition digit_val (base c : Z) : option Z :=
  let v := if is_digit c then Some (c - 48)
           else if (65 <=? c) && (c <=? 70) then Some (c - 55)
           else if (97 <=? c) && (c <=? 102) then Some (c - 87) else None in
  match v with Some v => if v <? base then Some v else None | None => None end.
(** char::is_whitespace (the Unicode property White_Space) *)
Definition is_space (c : Z) : bool :=
  ((9 <=? c) && (c <=? 13)) || (c =? 32) || (c =? 133) || (c =? 160) || (c =? 5760)
  || ((8192 <=? c) && (c <=? 8202)) || (c =? 8232) || (c =? 8233) || (c =? 8239) || (c =? 8287) || (c =? 12288).
(** str::to_ascii_lowercase.  str::to_lowercase is only compared with "udp", "tcp", "ssltcp", "tls" and "fid": no
    character outside ASCII has one of these letters as its lower case, so the ASCII part decides. *)
Definition lower (s : str) : str := map (fun c => if is_upper c then c + 32 else c) s.

(** ** Numbers *)
(** Display of an unsigned number (base 10), LowerHex (base 16, [up]=false) and UpperHex *)
Definition digit_chr (up : bool) (d : Z) : Z := if d <? 10 then 48 + d else (if up then 55 else 87) + d.
Fixpoint num_go (fuel : nat) (up : bool) (base n : Z) (acc : str) : str :=
  match fuel with
  | O => acc
  | S f => if n <? base then digit_chr up n :: acc
           else num_go f up base (n / base) (digit_chr up (n mod base) :: acc)
  end.
Definition show_num (up : bool) (base n : Z) : str := num_go (S (Z.to_nat (Z.log2 n))) up base n [].
Definition dec (n : Z) : str := show_num false 10 n.
(** {:0w x}: zero padded *)
Definition pad (w : Z) (s : str) : str := repeat 48 (Z.to_nat (w - zlen s)) ++ s.

(** <uN>::from_str_radix and <uN>::from_str: an optional plus sign and at least one digit, at most [max].  The
    intermediate overflow checks of the source fail exactly when the value exceeds the maximum. *)
Fixpoint num_val (base : Z) (s : str) (acc : Z) : option Z :=
  match s with
  | [] => Some acc
  | c :: r => match digit_val base c with Some d => num_val base r (acc * base + d) | None => None end
  end.
Definition read_num (base max : Z) (s : str) : option Z :=
  let s := match s with 43 :: r => r | _ => s end in
  match s with
  | [] => None
  | _ => match num_val base s 0 with Some v => if v <=? max then Some v else None | None => None end
  end.
Definition read_u8 := read_num 10 255.
Definition read_u16 := read_num 10 65535.
Definition read_u32 := read_num 10 4294967295.
Definition read_u64 := read_num 10 18446744073709551615.

(** ** Parsers: the result, and whether input was consumed *)
Inductive pres (A : Type) := POk (commit : bool) (v : A) (rest : str) | PErr (commit : bool).
Arguments POk {A}. Arguments PErr {A}.
Definition parser (A : Type) := str -> pres A.

(** value *)
Definition ret {A} (v : A) : parser A := fun s => POk false v s.
(** token, satisfy *)
Definition satisfy (f : Z -> bool) : parser Z := fun s =>
  match s with c :: r => if f c then POk true c r else PErr false | [] => PErr false end.
Definition token (c : Z) : parser Z := satisfy (Z.eqb c).
(** string (tokens_cmp): fails having consumed unless the first character is the wrong one *)
Fixpoint lit_go (l : str) (commit : bool) (s : str) : pres unit :=
  match l with
  | [] => POk commit tt s
  | c :: l => match s with
              | d :: s => if c =? d then lit_go l true s else PErr commit
              | [] => PErr commit
              end
  end.
Definition lit (l : str) : parser unit := lit_go l false.
(** eof *)
Definition eof : parser unit := fun s => match s with [] => POk false tt s | _ => PErr false end.
(** tuples: after a part that consumed, a failure has consumed *)
Definition pbind {A B} (p : parser A) (k : A -> parser B) : parser B := fun s =>
  match p s with
  | PErr c => PErr c
  | POk c v r => match k v r with POk c' w r' => POk (c || c') w r' | PErr c' => PErr (c || c') end
  end.
(** map *)
Definition pmap {A B} (f : A -> B) (p : parser A) : parser B := fun s =>
  match p s with POk c v r => POk c (f v) r | PErr c => PErr c end.
(** and_then *)
Definition pand {A B} (p : parser A) (f : A -> option B) : parser B := fun s =>
  match p s with
  | POk c v r => match f v with Some w => POk c w r | None => PErr c end
  | PErr c => PErr c
  end.
(** attempt *)
Definition attempt {A} (p : parser A) : parser A := fun s =>
  match p s with PErr _ => PErr false | r => r end.
(** optional *)
Definition optional {A} (p : parser A) : parser (option A) := fun s =>
  match p s with
  | POk c v r => POk c (Some v) r
  | PErr false => POk false None s
  | PErr true => PErr true
  end.
(** choice: the next alternative after a failure that consumed nothing *)
Fixpoint choice {A} (l : list (parser A)) : parser A := fun s =>
  match l with
  | [] => PErr false
  | p :: r => match p s with PErr false => choice r s | x => x end
  end.
(** many: until a failure that consumed nothing; [fuel] is the length of the input, each round consumes.  (A round that
    succeeds without consuming would loop for ever; it does not occur in the parsers below.) *)
Fixpoint many_go {A} (fuel : nat) (p : parser A) (commit : bool) (s : str) : pres (list A) :=
  match fuel with
  | O => POk commit [] s
  | S f => match p s with
           | POk true v r => match many_go f p true r with
                             | POk c l r => POk c (v :: l) r
                             | PErr c => PErr c end
           | POk false _ _ => PErr true
           | PErr false => POk commit [] s
           | PErr true => PErr true
           end
  end.
Definition many {A} (p : parser A) : parser (list A) := fun s => many_go (length s) p false s.
(** many1(satisfy(f)): the longest non-empty prefix *)
Fixpoint span (f : Z -> bool) (s : str) : str * str :=
  match s with
  | c :: r => if f c then let (a, b) := span f r in (c :: a, b) else ([], s)
  | [] => ([], [])
  end.
Definition take1 (f : Z -> bool) : parser str := fun s =>
  match span f s with ([], _) => PErr false | (a, b) => POk true a b end.
(** skip_many(satisfy(f)) *)
Definition skip (f : Z -> bool) : parser unit := fun s =>
  let (a, b) := span f s in POk (match a with [] => false | _ => true end) tt b.

(** sep_by1, sep_by *)
Definition sep_by1 {A B} (p : parser A) (sep : parser B) : parser (list A) :=
  pbind p (fun v => pmap (cons v) (many (pbind sep (fun _ => p)))).
Definition sep_by {A B} (p : parser A) (sep : parser B) : parser (list A) :=
  choice [sep_by1 p sep; ret []].

Notation "'pdo' x <- p ; k" := (pbind p (fun x => k)) (at level 200, x name, p at level 100, k at level 200, right associativity).
