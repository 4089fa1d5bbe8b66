(** * Microcode preprocessor and assembler

    Models what /repo/src/sentinel/ucoderom.py:195-252 ([UCodeROM.assemble],
    [_create_mem_init]) obtains from the external packages [m5pre] and [m5meta]:
    preprocess (#define macros, // comments, backslash continuation), parse the
    [space], [fields], [origin] and microinstruction statements, lay the fields
    out, resolve labels and produce one integer per address; holes are 0
    (ucoderom.py:246-252).  m5pre/m5meta are not part of the repository: their
    behaviour is modelled only for the constructs microcode.asm uses; anything
    else makes the assembler below return [None]. *)
From Coq Require Import String Ascii List ZArith Bool.
Import ListNotations.
Open Scope string_scope.
Open Scope list_scope.
Open Scope Z_scope.

(** ** Tokens *)
Inductive tok :=
| TId (s : string) | TNum (z : Z)
| TColon | TSemi | TComma | TArrow | TEq | TLB | TRB | TLP | TRP | THash | TNl.

Definition is_digit (c : ascii) : bool :=
  let n := nat_of_ascii c in (Nat.leb 48 n && Nat.leb n 57)%bool.
Definition is_alpha (c : ascii) : bool :=
  let n := nat_of_ascii c in
  ((Nat.leb 65 n && Nat.leb n 90) || (Nat.leb 97 n && Nat.leb n 122) || Nat.eqb n 95)%bool.
Definition is_idch (c : ascii) : bool := (is_digit c || is_alpha c)%bool.
Definition nl : ascii := ascii_of_nat 10.

(** Split off the longest identifier/number prefix. *)
Fixpoint span_id (l : list ascii) : list ascii * list ascii :=
  match l with
  | c :: r => if is_idch c then let (a, b) := span_id r in (c :: a, b) else ([], l)
  | [] => ([], [])
  end.

Fixpoint skip_comment (l : list ascii) : list ascii :=
  match l with
  | c :: r => if Ascii.eqb c nl then l else skip_comment r
  | [] => []
  end.

Definition digit_val (c : ascii) : option Z :=
  let n := nat_of_ascii c in
  if is_digit c then Some (Z.of_nat (n - 48))
  else if (Nat.leb 97 n && Nat.leb n 102)%bool then Some (Z.of_nat (n - 87))
  else if (Nat.leb 65 n && Nat.leb n 70)%bool then Some (Z.of_nat (n - 55))
  else None.

Fixpoint parse_base (base acc : Z) (l : list ascii) : option Z :=
  match l with
  | [] => Some acc
  | c :: r => match digit_val c with
              | Some d => if d <? base then parse_base base (acc * base + d) r else None
              | None => None
              end
  end.

(** Decimal or 0x-prefixed hexadecimal. *)
Definition parse_num (l : list ascii) : option Z :=
  match l with
  | "0"%char :: "x"%char :: r => parse_base 16 0 r
  | _ => parse_base 10 0 l
  end.

(** The lexer; [fuel] bounds the number of tokens and is checked, not ignored. *)
Fixpoint lex (fuel : nat) (l : list ascii) : option (list tok) :=
  match fuel with
  | O => match l with [] => Some [] | _ => None end
  | S f =>
    match l with
    | [] => Some []
    | c :: r =>
      if Ascii.eqb c " " then lex f r
      else if Ascii.eqb c nl then option_map (cons TNl) (lex f r)
      else if Ascii.eqb c "\" then
        match r with
        | d :: r' => if Ascii.eqb d nl then lex f r' else None
        | [] => None
        end
      else if Ascii.eqb c "/" then
        match r with
        | d :: r' => if Ascii.eqb d "/" then lex f (skip_comment r') else None
        | [] => None
        end
      else if Ascii.eqb c ":" then option_map (cons TColon) (lex f r)
      else if Ascii.eqb c ";" then option_map (cons TSemi) (lex f r)
      else if Ascii.eqb c "," then option_map (cons TComma) (lex f r)
      else if Ascii.eqb c "{" then option_map (cons TLB) (lex f r)
      else if Ascii.eqb c "}" then option_map (cons TRB) (lex f r)
      else if Ascii.eqb c "(" then option_map (cons TLP) (lex f r)
      else if Ascii.eqb c ")" then option_map (cons TRP) (lex f r)
      else if Ascii.eqb c "#" then option_map (cons THash) (lex f r)
      else if Ascii.eqb c "=" then
        match r with
        | d :: r' => if Ascii.eqb d ">" then option_map (cons TArrow) (lex f r')
                     else option_map (cons TEq) (lex f r)
        | [] => None
        end
      else if is_digit c then
        let (a, b) := span_id (c :: r) in
        match parse_num a with
        | Some z => option_map (cons (TNum z)) (lex f b)
        | None => None
        end
      else if is_alpha c then
        let (a, b) := span_id (c :: r) in
        option_map (cons (TId (string_of_list_ascii a))) (lex f b)
      else None
    end
  end.

(** ** Preprocessor: collect #define macros, expand, drop newlines *)
Record macro := { m_name : string; m_arg : option string; m_body : list tok }.

Fixpoint take_line (l : list tok) : list tok * list tok :=
  match l with
  | TNl :: r => ([], r)
  | t :: r => let (a, b) := take_line r in (t :: a, b)
  | [] => ([], [])
  end.

Fixpoint find_macro (ms : list macro) (n : string) : option macro :=
  match ms with
  | [] => None
  | m :: r => if String.eqb (m_name m) n then Some m else find_macro r n
  end.

Definition subst_arg (a : string) (v : tok) (body : list tok) : list tok :=
  map (fun t => match t with TId n => if String.eqb n a then v else t | _ => t end) body.

Fixpoint preprocess (fuel : nat) (ms : list macro) (l : list tok) : option (list tok) :=
  match fuel with
  | O => match l with [] => Some [] | _ => None end
  | S f =>
    match l with
    | [] => Some []
    | TNl :: r => preprocess f ms r
    | THash :: TId "define" :: TId n :: TLP :: TId a :: TRP :: r =>
        let (body, r') := take_line r in
        preprocess f ({| m_name := n; m_arg := Some a; m_body := body |} :: ms) r'
    | THash :: TId "define" :: TId n :: r =>
        let (body, r') := take_line r in
        preprocess f ({| m_name := n; m_arg := None; m_body := body |} :: ms) r'
    | THash :: _ => None
    | TId n :: r =>
        match find_macro ms n with
        | None => option_map (cons (TId n)) (preprocess f ms r)
        | Some m =>
          match m_arg m with
          | None => preprocess f ms (m_body m ++ r)
          | Some a =>
            match r with
            | TLP :: v :: TRP :: r' => preprocess f ms (subst_arg a v (m_body m) ++ r')
            | _ => None
            end
          end
        end
    | t :: r => option_map (cons t) (preprocess f ms r)
    end
  end.

(** ** Statements *)
Record fdef := { f_name : string; f_origin : Z; f_width : Z;
                 f_enum : list (string * Z); f_default : Z }.
Inductive value := VNum (z : Z) | VId (s : string).
Inductive stmt :=
| SSpace (width size : Z)
| SSelect
| SOrigin (z : Z)
| SFields (fs : list fdef)
| SInsn (labels : list string) (asg : list (string * value)).

(** enum items: [name] or [name = num], auto-incrementing like C, separated by
    [;], optional last separator. *)
Fixpoint parse_enum (fuel : nat) (next : Z) (l : list tok)
  : option (list (string * Z) * list tok) :=
  match fuel with
  | O => None
  | S f =>
    match l with
    | TRB :: r => Some ([], r)
    | TSemi :: r => parse_enum f next r
    | TId n :: TEq :: TNum z :: r =>
        option_map (fun '(e, r') => ((n, z) :: e, r')) (parse_enum f (z + 1) r)
    | TId n :: r =>
        option_map (fun '(e, r') => ((n, next) :: e, r')) (parse_enum f (next + 1) r)
    | _ => None
    end
  end.

Fixpoint assoc {A} (n : string) (l : list (string * A)) : option A :=
  match l with
  | [] => None
  | (k, v) :: r => if String.eqb k n then Some v else assoc n r
  end.

Definition enum_width (e : list (string * Z)) : Z :=
  Z.max 1 (Z.log2 (fold_right (fun p m => Z.max (snd p) m) 0 e) + 1).

(** Field definitions; a field without [origin] follows the previous one. *)
Fixpoint parse_fields (fuel : nat) (org : Z) (l : list tok)
  : option (list fdef * list tok) :=
  match fuel with
  | O => None
  | S f =>
    match l with
    | TRB :: TSemi :: r => Some ([], r)
    | TId n :: TColon :: TId "width" :: TNum w :: TComma :: TId "origin" :: TNum o
        :: TComma :: TId "default" :: TNum d :: TSemi :: r =>
        option_map (fun '(fs, r') =>
          ({| f_name := n; f_origin := o; f_width := w; f_enum := []; f_default := d |} :: fs, r'))
          (parse_fields f (o + w) r)
    | TId n :: TColon :: TId "bool" :: TComma :: TId "default" :: TNum d :: TSemi :: r =>
        option_map (fun '(fs, r') =>
          ({| f_name := n; f_origin := org; f_width := 1;
              f_enum := [("false", 0); ("true", 1)]; f_default := d |} :: fs, r'))
          (parse_fields f (org + 1) r)
    | TId n :: TColon :: TId "enum" :: TLB :: r =>
        match parse_enum f 0 r with
        | Some (e, TComma :: TId "default" :: TId d :: TSemi :: r') =>
            match assoc d e with
            | Some dv =>
              let w := enum_width e in
              option_map (fun '(fs, r'') =>
                ({| f_name := n; f_origin := org; f_width := w; f_enum := e; f_default := dv |} :: fs, r''))
                (parse_fields f (org + w) r')
            | None => None
            end
        | _ => None
        end
    | _ => None
    end
  end.

Fixpoint parse_asg (fuel : nat) (l : list tok) : option (list (string * value) * list tok) :=
  match fuel with
  | O => None
  | S f =>
    match l with
    | TId n :: TArrow :: v :: r =>
        match (match v with TNum z => Some (VNum z) | TId s => Some (VId s) | _ => None end) with
        | None => None
        | Some v' =>
          match r with
          | TComma :: r' => option_map (fun '(a, r'') => ((n, v') :: a, r'')) (parse_asg f r')
          | TSemi :: r' => Some ([(n, v')], r')
          | _ => None
          end
        end
    | _ => None
    end
  end.

Fixpoint parse_labels (fuel : nat) (l : list tok) : list string * list tok :=
  match fuel with
  | O => ([], l)
  | S f =>
    match l with
    | TId n :: TColon :: r => let (ls, r') := parse_labels f r in (n :: ls, r')
    | _ => ([], l)
    end
  end.

Fixpoint parse (fuel : nat) (l : list tok) : option (list stmt) :=
  match fuel with
  | O => match l with [] => Some [] | _ => None end
  | S f =>
    match l with
    | [] => Some []
    | TId "space" :: TId _ :: TColon :: TId "width" :: TNum w :: TComma :: TId "size" :: TNum z :: TSemi :: r =>
        option_map (cons (SSpace w z)) (parse f r)
    | TId "space" :: TId _ :: TSemi :: r => option_map (cons SSelect) (parse f r)
    | TId "origin" :: TNum z :: TSemi :: r => option_map (cons (SOrigin z)) (parse f r)
    | TId "fields" :: TId _ :: TColon :: TLB :: r =>
        match parse_fields f 0 r with
        | Some (fs, r') => option_map (cons (SFields fs)) (parse f r')
        | None => None
        end
    | _ =>
        let (ls, r) := parse_labels f l in
        match parse_asg f r with
        | Some (a, r') => option_map (cons (SInsn ls a)) (parse f r')
        | None => None
        end
    end
  end.

(** ** Two-pass assembly (m5meta pass12 run twice, ucoderom.py:216-222) *)
(** Pass 1: addresses of labels. *)
Fixpoint label_table (pc : Z) (l : list stmt) : list (string * Z) :=
  match l with
  | [] => []
  | SOrigin z :: r => label_table z r
  | SInsn ls _ :: r => map (fun n => (n, pc)) ls ++ label_table (pc + 1) r
  | _ :: r => label_table pc r
  end.

Definition find_fields (l : list stmt) : list fdef :=
  fold_right (fun s acc => match s with SFields fs => fs | _ => acc end) [] l.

Definition find_space (l : list stmt) : Z * Z :=
  fold_right (fun s acc => match s with SSpace w z => (w, z) | _ => acc end) (0, 0) l.

(** Enum names are looked up in the field's own enum, otherwise the name is a label. *)
Definition resolve (labels : list (string * Z)) (fd : fdef) (v : value) : option Z :=
  match v with
  | VNum z => if (0 <=? z) && (z <? 2 ^ f_width fd) then Some z else None
  | VId s => match f_enum fd with [] => assoc s labels | e => assoc s e end
  end.

Fixpoint nodup_keys {A} (l : list (string * A)) : bool :=
  match l with
  | [] => true
  | (k, _) :: r => match assoc k r with Some _ => false | None => nodup_keys r end
  end.

Definition has_field (fs : list fdef) (n : string) : bool :=
  existsb (fun fd => String.eqb (f_name fd) n) fs.

Fixpoint encode_fields (labels : list (string * Z)) (asg : list (string * value))
  (fs : list fdef) : option Z :=
  match fs with
  | [] => Some 0
  | fd :: r =>
    match encode_fields labels asg r with
    | None => None
    | Some w =>
      match assoc (f_name fd) asg with
      | None => Some (Z.lor (Z.shiftl (f_default fd) (f_origin fd)) w)
      | Some v => match resolve labels fd v with
                  | Some z => Some (Z.lor (Z.shiftl z (f_origin fd)) w)
                  | None => None
                  end
      end
    end
  end.

Definition encode_insn labels fs asg : option Z :=
  if nodup_keys asg && forallb (fun p => has_field fs (fst p)) asg
  then encode_fields labels asg fs else None.

(** Pass 2: address/word pairs ([space.data]). *)
Fixpoint emit (labels : list (string * Z)) (fs : list fdef) (pc : Z) (l : list stmt)
  : option (list (Z * Z)) :=
  match l with
  | [] => Some []
  | SOrigin z :: r => emit labels fs z r
  | SInsn _ asg :: r =>
      match encode_insn labels fs asg, emit labels fs (pc + 1) r with
      | Some w, Some d => Some ((pc, w) :: d)
      | _, _ => None
      end
  | _ :: r => emit labels fs pc r
  end.

Fixpoint assocZ (k : Z) (l : list (Z * Z)) : option Z :=
  match l with
  | [] => None
  | (a, v) :: r => if a =? k then Some v else assocZ k r
  end.

(** Addresses must be distinct and inside the space. *)
Fixpoint data_ok (size : Z) (d : list (Z * Z)) : bool :=
  match d with
  | [] => true
  | (a, _) :: r => (0 <=? a) && (a <? size) &&
                   match assocZ a r with Some _ => false | None => true end && data_ok size r
  end.

(** [ucode_contents] (ucoderom.py:246-252): zeros, then every address with data. *)
Definition mem_init (size : Z) (d : list (Z * Z)) : list Z :=
  map (fun i => match assocZ (Z.of_nat i) d with Some v => v | None => 0 end)
      (seq 0 (Z.to_nat size)).

Record image := { im_width : Z; im_size : Z; im_fields : list fdef;
                  im_labels : list (string * Z); im_data : list (Z * Z); im_words : list Z;
                  im_stmts : list stmt }.

Definition assemble_fuel : nat := 50 * 1000.

Definition assemble (src : string) : option image :=
  match lex assemble_fuel (list_ascii_of_string src) with
  | None => None
  | Some toks =>
    match preprocess assemble_fuel [] toks with
    | None => None
    | Some toks' =>
      match parse assemble_fuel toks' with
      | None => None
      | Some ss =>
        let labels := label_table 0 ss in
        let fs := find_fields ss in
        let (w, z) := find_space ss in
        match emit labels fs 0 ss with
        | Some d => if data_ok z d && nodup_keys labels
                    then Some {| im_width := w; im_size := z; im_fields := fs;
                                 im_labels := labels; im_data := d; im_words := mem_init z d;
                                 im_stmts := ss |}
                    else None
        | None => None
        end
      end
    end
  end.
