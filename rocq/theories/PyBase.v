(** * PyBase: the Python primitives warcio uses, on lists of code points.

    Nothing here models warcio itself; it models the CPython built-ins that
    the modelled files call.  Each definition names the built-in and the
    place in /repo/warcio where it is used. *)
From Coq Require Import List ZArith NArith Bool String Ascii.
Import ListNotations.
Open Scope Z_scope.

(** [bytes]: list of octets.  [str]: list of Unicode code points. *)
Definition bytes := list N.
Definition str := list N.

(** String literals of the source files. *)
Definition lit (s : string) : list N := List.map N_of_ascii (list_ascii_of_string s).

Definition CR : N := 13%N.
Definition LF : N := 10%N.
Definition crlf : bytes := [13%N; 10%N].

(** ** Exceptions as values. *)
Inductive exn :=
| EOFError                    (* EOFError() *)
| ParserExn (statusline : str) (* StatusAndHeadersParserException, with .statusline *)
| ArchiveLoadFailed           (* warcio/exceptions.py *)
| ChunkedExn (data : bytes)   (* ChunkedDataException, with .data *)
| ValueErr                    (* ValueError *)
| TypeErr                     (* TypeError *)
| AttributeErr                (* AttributeError *)
| UnicodeErr                  (* UnicodeEncodeError (to_ascii_bytes) *)
| BinasciiErr                 (* binascii.Error *)
| AssertErr                   (* AssertionError *)
| GenericExn                  (* Exception(...) *)
| IndexErr                    (* IndexError *)
| OutOfFuel.                  (* not a Python exception: the model's loop bound was hit *)

Inductive res (A : Type) :=
| Ok (a : A)
| Err (e : exn).
Arguments Ok {A} _.
Arguments Err {A} _.

(** ** Lists *)

(** len() *)
Definition lenZ {A} (l : list A) : Z := Z.of_nat (List.length l).

(** x[:n] for n >= 0 (n < 0 gives the empty list here; the callers test the sign first) *)
Fixpoint takeZ {A} (n : Z) (l : list A) : list A :=
  match l with
  | [] => []
  | x :: t => if 0 <? n then x :: takeZ (n - 1) t else []
  end.

(** x[n:] for n >= 0 *)
Fixpoint dropZ {A} (n : Z) (l : list A) : list A :=
  match l with
  | [] => []
  | _ :: t => if 0 <? n then dropZ (n - 1) t else l
  end.

(** == on strings *)
Fixpoint leqb (a b : list N) : bool :=
  match a, b with
  | [], [] => true
  | x :: a', y :: b' => N.eqb x y && leqb a' b'
  | _, _ => false
  end.

Definition is_nil {A} (l : list A) : bool := match l with [] => true | _ => false end.

(** s.startswith(p) *)
Fixpoint startswith (p l : list N) : bool :=
  match p, l with
  | [], _ => true
  | x :: p', y :: l' => N.eqb x y && startswith p' l'
  | _ :: _, [] => false
  end.

(** s.endswith(p) *)
Definition endswith (p l : list N) : bool := startswith (rev p) (rev l).

(** c in s *)
Definition has_char (c : N) (l : list N) : bool := existsb (N.eqb c) l.

(** ** Lines: BytesIO.readline / io.BufferedReader.readline *)
Fixpoint take_line (l : bytes) : bytes :=
  match l with
  | [] => []
  | c :: t => if N.eqb c LF then [c] else c :: take_line t
  end.

Fixpoint drop_line (l : bytes) : bytes :=
  match l with
  | [] => []
  | c :: t => if N.eqb c LF then t else drop_line t
  end.

(** What read(n) returns on an in-memory file with remaining content [l]:
    everything if n is None or negative. *)
Definition read_of (n : option Z) (l : bytes) : bytes :=
  match n with
  | None => l
  | Some k => if k <? 0 then l else takeZ k l
  end.

(** What readline(n) returns on an in-memory file with remaining content [l]. *)
Definition line_of (n : option Z) (l : bytes) : bytes :=
  match n with
  | None => take_line l
  | Some k => if k <? 0 then take_line l else takeZ k (take_line l)
  end.

(** ** Whitespace *)

(** str.isspace(): the exact CPython set *)
Definition is_uspace (c : N) : bool :=
  ((9 <=? c) && (c <=? 13) || (28 <=? c) && (c <=? 32) || (c =? 133) || (c =? 160)
   || (c =? 5760) || (8192 <=? c) && (c <=? 8202) || (c =? 8232) || (c =? 8233)
   || (c =? 8239) || (c =? 8287) || (c =? 12288))%N.

(** bytes whitespace (bytes.strip, C isspace) *)
Definition is_bspace (c : N) : bool := ((9 <=? c) && (c <=? 13) || (c =? 32))%N.

(** lstrip with a predicate *)
Fixpoint lstripp (p : N -> bool) (l : list N) : list N :=
  match l with
  | [] => []
  | c :: t => if p c then lstripp p t else l
  end.

(** rstrip with a predicate *)
Fixpoint rstripp (p : N -> bool) (l : list N) : list N :=
  match l with
  | [] => []
  | c :: t => match rstripp p t with
              | [] => if p c then [] else [c]
              | t' => c :: t'
              end
  end.

Definition stripp (p : N -> bool) (l : list N) : list N := lstripp p (rstripp p l).

(** ** Case.  str.lower()/upper() restricted to ASCII letters.
    Simplification: CPython also maps non-ASCII letters. *)
Definition lower1 (c : N) : N := if ((65 <=? c) && (c <=? 90))%N then (c + 32)%N else c.
Definition upper1 (c : N) : N := if ((97 <=? c) && (c <=? 122))%N then (c - 32)%N else c.
Definition lower (l : str) : str := List.map lower1 l.
Definition upper (l : str) : str := List.map upper1 l.

(** ** Splitting *)

(** s.split(c, 1) as a pair; None if c does not occur *)
Fixpoint split1 (c : N) (l : list N) : option (list N * list N) :=
  match l with
  | [] => None
  | x :: t => if N.eqb x c then Some ([], t)
              else match split1 c t with
                   | None => None
                   | Some (a, b) => Some (x :: a, b)
                   end
  end.

(** s.rsplit(c, 1) as a pair *)
Fixpoint rsplit1 (c : N) (l : list N) : option (list N * list N) :=
  match l with
  | [] => None
  | x :: t => match rsplit1 c t with
              | Some (a, b) => Some (x :: a, b)
              | None => if N.eqb x c then Some ([], t) else None
              end
  end.

(** s.rsplit(c, k) *)
Fixpoint rsplit (c : N) (k : nat) (l : list N) : list (list N) :=
  match k with
  | O => [l]
  | S k' => match rsplit1 c l with
            | None => [l]
            | Some (a, b) => rsplit c k' a ++ [b]
            end
  end.

(** re.split on single characters satisfying p / s.split(c) *)
Fixpoint split_on (p : N -> bool) (l : list N) : list (list N) :=
  match l with
  | [] => [[]]
  | x :: t => if p x then [] :: split_on p t
              else match split_on p t with
                   | h :: r => (x :: h) :: r
                   | [] => [[x]]
                   end
  end.

(** ** int() *)

(** Zero digits of the Unicode decimal (Nd) blocks of CPython 3.11. *)
Definition nd_zeros : list N :=
  [48; 1632; 1776; 1984; 2406; 2534; 2662; 2790; 2918; 3046; 3174; 3302; 3430;
   3558; 3664; 3792; 3872; 4160; 4240; 6112; 6160; 6470; 6608; 6784; 6800; 6992;
   7088; 7232; 7248; 42528; 43216; 43264; 43472; 43504; 43600; 44016; 65296;
   66720; 68912; 69734; 69872; 69942; 70096; 70384; 70736; 70864; 71248; 71360;
   71472; 71904; 72016; 72784; 73040; 73120; 92768; 92864; 93008; 120782; 120792;
   120802; 120812; 120822; 123200; 123632; 125264; 130032]%N.

(** value of a Unicode decimal digit *)
Definition nd_val (c : N) : option N :=
  match find (fun z => (z <=? c) && (c <=? z + 9))%N nd_zeros with
  | Some z => Some (c - z)%N
  | None => None
  end.

(** _PyUnicode_TransformDecimalAndSpaceToASCII, one character *)
Definition to_ascii_digit (c : N) : N :=
  if (c <? 127)%N then c
  else if is_uspace c then 32%N
  else match nd_val c with Some d => (48 + d)%N | None => 63%N end.

(** digit value in base 16 (and 10, for values < 10) *)
Definition hexval (c : N) : option N :=
  (if (48 <=? c) && (c <=? 57) then Some (c - 48)
   else if (97 <=? c) && (c <=? 102) then Some (c - 87)
   else if (65 <=? c) && (c <=? 70) then Some (c - 55)
   else None)%N.

Definition digit_in (base : N) (c : N) : option N :=
  match hexval c with
  | Some d => if (d <? base)%N then Some d else None
  | None => None
  end.

(** digits with single underscores between them; [started]: a digit has been seen
    directly before.  Result: value of the whole list or None. *)
Fixpoint int_digits (base : N) (started : bool) (acc : N) (l : list N) : option N :=
  match l with
  | [] => if started then Some acc else None
  | c :: t =>
      match digit_in base c with
      | Some d => int_digits base true (acc * base + d)%N t
      | None => if ((c =? 95)%N && started)%bool then
                  match t with
                  | c2 :: _ => match digit_in base c2 with
                               | Some _ => int_digits base false acc t
                               | None => None
                               end
                  | [] => None
                  end
                else None
      end
  end.

(** PyLong_FromString: whitespace, sign, optional 0x prefix (base 16), digits *)
Definition int_core (base : N) (l : list N) : option Z :=
  let l := stripp is_bspace l in
  let '(neg, l) := match l with
                   | 43%N :: t => (false, t)
                   | 45%N :: t => (true, t)
                   | _ => (false, l)
                   end in
  let l := if (base =? 16)%N then
             match l with
             | 48%N :: x :: t =>
                 if ((x =? 120)%N || (x =? 88)%N)%bool
                 then match t with 95%N :: t' => t' | _ => t end
                 else l
             | _ => l
             end
           else l in
  match int_digits base false 0 l with
  | Some n => Some (if neg : bool then (- Z.of_N n)%Z else Z.of_N n)
  | None => None
  end.

(** int(s) for a str.  Simplification: no 4300-digit limit. *)
Definition py_int (s : str) : option Z := int_core 10 (List.map to_ascii_digit s).

(** int(b, 16) for bytes *)
Definition py_int16 (b : bytes) : option Z := int_core 16 b.

(** ** str(int) *)
Fixpoint dec_digits (fuel : nat) (n : N) (acc : list N) : list N :=
  match fuel with
  | O => acc
  | S f => let acc' := (48 + n mod 10)%N :: acc in
           if (n <? 10)%N then acc' else dec_digits f (n / 10)%N acc'
  end.

Definition dec_of_N (n : N) : str := dec_digits (S (N.to_nat (N.log2 n))) n [].

Definition str_of_Z (z : Z) : str :=
  if z <? 0 then 45%N :: dec_of_N (Z.to_N (- z)) else dec_of_N (Z.to_N z).

(** '{:02d}'-style zero padding on the left *)
Definition zpad (w : Z) (s : str) : str :=
  repeat 48%N (Z.to_nat (w - lenZ s)) ++ s.

(** hexadecimal digits of a number, lower case (format(n, 'x')) *)
Definition hexdig (d : N) : N := (if d <? 10 then 48 + d else 87 + d)%N.
Fixpoint hex_digits (fuel : nat) (n : N) (acc : list N) : list N :=
  match fuel with
  | O => acc
  | S f => let acc' := hexdig (n mod 16)%N :: acc in
           if (n <? 16)%N then acc' else hex_digits f (n / 16)%N acc'
  end.
Definition hex_of_N (n : N) : bytes := hex_digits (S (N.to_nat (N.log2 n))) n [].

(** s.replace(" ", "%20") (recordloader.py:265) *)
Definition replace_spaces (s : str) : str :=
  flat_map (fun c => if N.eqb c 32%N then lit "%20" else [c]) s.

(** s.strip() for str; s.rstrip() for bytes *)
Definition ustrip := stripp is_uspace.
Definition urstrip := rstripp is_uspace.
Definition ulstrip := lstripp is_uspace.

(** option truthiness of a header value *)
Definition truthy (o : option str) : bool :=
  match o with Some (_ :: _) => true | _ => false end.

(** sep.join(l) *)
Fixpoint join (sep : list N) (l : list (list N)) : list N :=
  match l with
  | [] => []
  | [x] => x
  | x :: t => x ++ sep ++ join sep t
  end.
