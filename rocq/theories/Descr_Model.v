(** Model of descriptor splitting, pretty types, line tables and platform names of
    /repo/javatools/__init__.py.  Simplification: descriptors are str (the value
    of a Utf8 constant); the Python recursion limit is not modelled. *)
From Verif Require Import Base Pack_Model ConstPool_Model ClassFile_Model Opcodes_Model.

(** [i = s.find(c) + 1; (s[:i], s[i:])], __init__.py:2268-2269, 2272-2273:
    split after the first [c]; ("", s) if there is none. *)
Fixpoint split_after (c : Z) (s : str) : option (str * str) :=
  match s with
  | [] => None
  | x :: s' => if x =? c then Some ([x], s')
               else match split_after c s' with
                    | Some (a, b) => Some (x :: a, b)
                    | None => None
                    end
  end.
Definition find_split (c : Z) (s : str) : str * str :=
  match split_after c s with Some r => r | None => ([], s) end.

(** the characters of "BCDFIJSVZ", __init__.py:2258 *)
Definition is_prim_char (c : Z) : bool :=
  existsb (Z.eqb c) [66; 67; 68; 70; 73; 74; 83; 86; 90].

(** _next_argsig, __init__.py:2250-2284: the signature and the rest *)
Fixpoint next_argsig (s : str) : res (str * str) :=
  match s with
  | [] => Err IndexError
  | c :: s' =>
      if is_prim_char c then Ok ([c], s')
      else if c =? 91 (* [ *) then
        r <- next_argsig s' ;; Ok (c :: fst r, snd r)
      else if c =? 76 (* L *) then Ok (find_split 59 s)
      else if c =? 40 (* ( *) then Ok (find_split 41 s)
      else if c =? 46 (* . *) then Ok (s', [])
      else Err Unimplemented
  end.

(** _typeseq_iter consumed by tuple, __init__.py:2287-2322.  Fuel: one more than
    the length of the string. *)
Fixpoint typeseq_f (fuel : nat) (s : str) : res (list str) :=
  match s with
  | [] => Ok []
  | _ :: _ =>
      match fuel with
      | O => Err OutOfFuel
      | S fu =>
          r <- next_argsig s ;;
          if seqb s (snd r) && seqb (fst r) [] then Err Unimplemented
          else rest <- typeseq_f fu (snd r) ;; Ok (fst r :: rest)
      end
  end.
Definition typeseq (s : str) : res (list str) := typeseq_f (S (length s)) s.

(** [s.replace("/", ".")], _pretty_class, __init__.py:2387-2394 *)
Definition pretty_class (s : str) : str := map (fun c => if c =? 47 then 46 else c) s.

(** _pretty_type and _pretty_typeseq, __init__.py:2325-2384; the argument is
    s[offset:], so s[offset+1:-1] is its tail without the last character. *)
Fixpoint pretty_type_f (fuel : nat) (s : str) : res str :=
  match fuel with
  | O => Err OutOfFuel
  | S fu =>
      match s with
      | [] => Err IndexError
      | tc :: s' =>
          if tc =? 86 then Ok (lit "void")
          else if tc =? 90 then Ok (lit "boolean")
          else if tc =? 67 then Ok (lit "char")
          else if tc =? 66 then Ok (lit "byte")
          else if tc =? 83 then Ok (lit "short")
          else if tc =? 73 then Ok (lit "int")
          else if tc =? 74 then Ok (lit "long")
          else if tc =? 68 then Ok (lit "double")
          else if tc =? 70 then Ok (lit "float")
          else if tc =? 76 then Ok (pretty_class (removelast s'))
          else if tc =? 91 then r <- pretty_type_f fu s' ;; Ok (r ++ lit "[]")
          else if tc =? 40 then
            ts <- typeseq (removelast s') ;;
            ps <- mapM (pretty_type_f fu) ts ;;
            Ok (lit "(" ++ concat_with (lit ",") ps ++ lit ")")
          else if tc =? 84 then Ok (lit "generic " ++ s')
          else Err Unimplemented
      end
  end.
Definition pretty_type (s : str) : res str := pretty_type_f (S (length s)) s.

(** [x[-1]] and [x[0]] of a tuple *)
Definition py_last {A} (l : list A) : res A :=
  match rev l with [] => Err IndexError | x :: _ => Ok x end.
Definition py_first {A} (l : list A) : res A :=
  match l with [] => Err IndexError | x :: _ => Ok x end.

(** get_type_descriptor, __init__.py:1437-1444, given the descriptor *)
Definition get_type_descriptor (desc : str) : res str :=
  t <- typeseq desc ;; py_last t.
(** [tp[0][1:-1]] *)
Definition strip_ends (s : str) : str := removelast (tl s).
(** get_arg_type_descriptors, __init__.py:1447-1462, given is_method and the descriptor *)
Definition get_arg_type_descriptors (is_method : bool) (desc : str) : res (list str) :=
  if is_method
  then tp <- typeseq desc ;; t <- py_first tp ;; typeseq (strip_ends t)
  else Ok [].
(** JavaMemberInfo.pretty_type, __init__.py:1465-1470 *)
Definition member_pretty_type (desc : str) : res str :=
  t <- get_type_descriptor desc ;; pretty_type t.
(** JavaMemberInfo.pretty_arg_types, __init__.py:1473-1482, consumed *)
Definition pretty_arg_types (is_method : bool) (desc : str) : res (list str) :=
  if is_method then ts <- get_arg_type_descriptors true desc ;; mapM pretty_type ts else Ok [].

(** ** Platform *)
(** _platforms, __init__.py:2085-2094 *)
Definition platforms : list ((Z * Z) * (Z * Z) * str) :=
  [ ((45, 0), (45, 3), lit "1.0.2"); ((45, 4), (45, 65535), lit "1.1");
    ((46, 0), (46, 65535), lit "1.2"); ((47, 0), (47, 65535), lit "1.3");
    ((48, 0), (48, 65535), lit "1.4"); ((49, 0), (49, 65535), lit "1.5");
    ((50, 0), (50, 65535), lit "1.6"); ((51, 0), (51, 65535), lit "1.7");
    ((52, 0), (52, 65535), lit "1.8") ].
(** tuple comparison [<=] *)
Definition pair_le (a b : Z * Z) : bool :=
  (fst a <? fst b) || ((fst a =? fst b) && (snd a <=? snd b)).
(** platform_from_version, __init__.py:2097-2108 *)
Definition platform_from_version (major minor : Z) : option str :=
  match find (fun r => pair_le (fst (fst r)) (major, minor) && pair_le (major, minor) (snd (fst r))) platforms with
  | Some r => Some (snd r)
  | None => None
  end.

(** ** Line tables *)
(** get_relativelinenumbertable, __init__.py:1681-1693 *)
Definition relative_lines (t : list (Z * Z)) : list (Z * Z) :=
  match t with
  | [] => []
  | (_, first) :: _ => map (fun x => (fst x, snd x - first)) t
  end.

(** get_line_for_offset, __init__.py:1728-1743 *)
Fixpoint line_loop (t : list (Z * Z)) (code_offset prev_line : Z) : Z :=
  match t with
  | [] => prev_line
  | (offset, line) :: t' =>
      if offset <? code_offset then line_loop t' code_offset line
      else if offset =? code_offset then line
      else prev_line
  end.
Definition get_line_for_offset (t : list (Z * Z)) (code_offset : Z) : Z := line_loop t code_offset 0.

(** the loop of iter_code_by_lines, __init__.py:1760-1775: the current line and
    the instructions gathered for it, in order *)
Fixpoint group_loop (t : list (Z * Z)) (first : Z) (dis : list insn) (cur : option (Z * list insn))
  : list (Z * Z * list insn) :=
  match dis with
  | [] => match cur with
          | Some (l, (_ :: _) as g) => [(l, l - first, g)]
          | _ => []
          end
  | c :: dis' =>
      let abs_line := get_line_for_offset t (Z.of_nat (i_off c)) in
      match cur with
      | Some (l, g) =>
          if l =? abs_line then group_loop t first dis' (Some (l, g ++ [c]))
          else (l, l - first, g) :: group_loop t first dis' (Some (abs_line, [c]))
      | None => group_loop t first dis' (Some (abs_line, [c]))
      end
  end.

(** iter_code_by_lines, __init__.py:1746-1775, consumed; self.disassemble() is
    tuple(disassemble(code)), 1778-1789 *)
Definition iter_code_by_lines (t : list (Z * Z)) (bc : bytes) : res (list (Z * Z * list insn)) :=
  dis <- disassemble_all bc ;;
  match t with
  | [] => Ok [(1, 1, dis)]
  | (_, first) :: _ => Ok (group_loop t first dis None)
  end.
