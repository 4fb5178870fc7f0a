(** Model of /repo/javatools/opcodes.py. *)
From Verif Require Import Base Pack_Model.

(** The [fmt] argument of __op (opcodes.py:105-117): a struct format string,
    turned into partial(_unpack, struct), or one of the three callables. *)
Inductive argfmt := FStruct (f : fmt) | FLookup | FTable | FWide.

(** An operand tuple (opcodes.py:88-93, 119); the unused consume/produce fields
    are omitted. *)
Record op := mkop_ { o_name : str; o_code : Z; o_fmt : option argfmt; o_const : bool }.
Definition mkop (n : String.string) c f k := mkop_ (lit n) c f k.

(** The op table, in the order of opcodes.py:265-481 (line given per row). *)
Definition optable : list op := [
  mkop "aaload" 50 None false (* :265 *);
  mkop "aastore" 83 None false (* :266 *);
  mkop "aconst_null" 1 None false (* :267 *);
  mkop "aload" 25 (Some (FStruct [cB])) false (* :268 *);
  mkop "aload_0" 42 None false (* :269 *);
  mkop "aload_1" 43 None false (* :270 *);
  mkop "aload_2" 44 None false (* :271 *);
  mkop "aload_3" 45 None false (* :272 *);
  mkop "anewarray" 189 (Some (FStruct [cH])) true (* :273 *);
  mkop "areturn" 176 None false (* :274 *);
  mkop "arraylength" 190 None false (* :275 *);
  mkop "astore" 58 (Some (FStruct [cB])) false (* :276 *);
  mkop "astore_0" 75 None false (* :277 *);
  mkop "astore_1" 76 None false (* :278 *);
  mkop "astore_2" 77 None false (* :279 *);
  mkop "astore_3" 78 None false (* :280 *);
  mkop "athrow" 191 None false (* :281 *);
  mkop "baload" 51 None false (* :283 *);
  mkop "bastore" 84 None false (* :284 *);
  mkop "bipush" 16 (Some (FStruct [cB])) false (* :285 *);
  mkop "caload" 52 None false (* :287 *);
  mkop "castore" 85 None false (* :288 *);
  mkop "checkcast" 192 (Some (FStruct [cH])) true (* :289 *);
  mkop "d2f" 144 None false (* :291 *);
  mkop "d2i" 142 None false (* :292 *);
  mkop "d2l" 143 None false (* :293 *);
  mkop "dadd" 99 None false (* :294 *);
  mkop "daload" 49 None false (* :295 *);
  mkop "dastore" 82 None false (* :296 *);
  mkop "dcmpg" 152 None false (* :297 *);
  mkop "dcmpl" 151 None false (* :298 *);
  mkop "dconst_0" 14 None false (* :299 *);
  mkop "dconst_1" 15 None false (* :300 *);
  mkop "ddiv" 111 None false (* :301 *);
  mkop "dload" 24 (Some (FStruct [cB])) false (* :302 *);
  mkop "dload_0" 38 None false (* :303 *);
  mkop "dload_1" 39 None false (* :304 *);
  mkop "dload_2" 40 None false (* :305 *);
  mkop "dload_3" 41 None false (* :306 *);
  mkop "dmul" 107 None false (* :307 *);
  mkop "dneg" 119 None false (* :308 *);
  mkop "drem" 115 None false (* :309 *);
  mkop "dreturn" 175 None false (* :310 *);
  mkop "dstore" 57 (Some (FStruct [cB])) false (* :311 *);
  mkop "dstore_0" 71 None false (* :312 *);
  mkop "dstore_1" 72 None false (* :313 *);
  mkop "dstore_2" 73 None false (* :314 *);
  mkop "dstore_3" 74 None false (* :315 *);
  mkop "dsub" 103 None false (* :316 *);
  mkop "dup" 89 None false (* :317 *);
  mkop "dup_x1" 90 None false (* :318 *);
  mkop "dup_x2" 91 None false (* :319 *);
  mkop "dup2" 92 None false (* :320 *);
  mkop "dup2_x1" 93 None false (* :321 *);
  mkop "dup2_x2" 94 None false (* :322 *);
  mkop "f2d" 141 None false (* :324 *);
  mkop "f2i" 139 None false (* :325 *);
  mkop "f2l" 140 None false (* :326 *);
  mkop "fadd" 98 None false (* :327 *);
  mkop "faload" 48 None false (* :328 *);
  mkop "fastore" 81 None false (* :329 *);
  mkop "fcmpg" 150 None false (* :330 *);
  mkop "fcmpl" 149 None false (* :331 *);
  mkop "fconst_0" 11 None false (* :332 *);
  mkop "fconst_1" 12 None false (* :333 *);
  mkop "fconst_2" 13 None false (* :334 *);
  mkop "fdiv" 110 None false (* :335 *);
  mkop "fload" 23 (Some (FStruct [cB])) false (* :336 *);
  mkop "fload_0" 34 None false (* :337 *);
  mkop "fload_1" 35 None false (* :338 *);
  mkop "fload_2" 36 None false (* :339 *);
  mkop "fload_3" 37 None false (* :340 *);
  mkop "fmul" 106 None false (* :341 *);
  mkop "fneg" 118 None false (* :342 *);
  mkop "frem" 114 None false (* :343 *);
  mkop "freturn" 174 None false (* :344 *);
  mkop "fstore" 56 (Some (FStruct [cB])) false (* :345 *);
  mkop "fstore_0" 67 None false (* :346 *);
  mkop "fstore_1" 68 None false (* :347 *);
  mkop "fstore_2" 69 None false (* :348 *);
  mkop "fstore_3" 70 None false (* :349 *);
  mkop "fsub" 102 None false (* :350 *);
  mkop "getfield" 180 (Some (FStruct [cH])) true (* :352 *);
  mkop "getstatic" 178 (Some (FStruct [cH])) true (* :353 *);
  mkop "goto" 167 (Some (FStruct [ch])) false (* :354 *);
  mkop "goto_w" 200 (Some (FStruct [ci])) false (* :355 *);
  mkop "i2b" 145 None false (* :357 *);
  mkop "i2c" 146 None false (* :358 *);
  mkop "i2d" 135 None false (* :359 *);
  mkop "i2f" 134 None false (* :360 *);
  mkop "i2l" 133 None false (* :361 *);
  mkop "i2s" 147 None false (* :362 *);
  mkop "iadd" 96 None false (* :363 *);
  mkop "iaload" 46 None false (* :364 *);
  mkop "iand" 126 None false (* :365 *);
  mkop "iastore" 79 None false (* :366 *);
  mkop "iconst_m1" 2 None false (* :367 *);
  mkop "iconst_0" 3 None false (* :368 *);
  mkop "iconst_1" 4 None false (* :369 *);
  mkop "iconst_2" 5 None false (* :370 *);
  mkop "iconst_3" 6 None false (* :371 *);
  mkop "iconst_4" 7 None false (* :372 *);
  mkop "iconst_5" 8 None false (* :373 *);
  mkop "idiv" 108 None false (* :374 *);
  mkop "if_acmpeq" 165 (Some (FStruct [ch])) false (* :375 *);
  mkop "if_acmpne" 166 (Some (FStruct [ch])) false (* :376 *);
  mkop "if_icmpeq" 159 (Some (FStruct [ch])) false (* :377 *);
  mkop "if_icmpne" 160 (Some (FStruct [ch])) false (* :378 *);
  mkop "if_icmplt" 161 (Some (FStruct [ch])) false (* :379 *);
  mkop "if_icmpge" 162 (Some (FStruct [ch])) false (* :380 *);
  mkop "if_icmpgt" 163 (Some (FStruct [ch])) false (* :381 *);
  mkop "if_icmple" 164 (Some (FStruct [ch])) false (* :382 *);
  mkop "ifeq" 153 (Some (FStruct [ch])) false (* :383 *);
  mkop "ifne" 154 (Some (FStruct [ch])) false (* :384 *);
  mkop "iflt" 155 (Some (FStruct [ch])) false (* :385 *);
  mkop "ifge" 156 (Some (FStruct [ch])) false (* :386 *);
  mkop "ifgt" 157 (Some (FStruct [ch])) false (* :387 *);
  mkop "ifle" 158 (Some (FStruct [ch])) false (* :388 *);
  mkop "ifnonnull" 199 (Some (FStruct [ch])) false (* :389 *);
  mkop "ifnull" 198 (Some (FStruct [ch])) false (* :390 *);
  mkop "iinc" 132 (Some (FStruct [cB; cb])) false (* :391 *);
  mkop "iload" 21 (Some (FStruct [cB])) false (* :392 *);
  mkop "iload_0" 26 None false (* :393 *);
  mkop "iload_1" 27 None false (* :394 *);
  mkop "iload_2" 28 None false (* :395 *);
  mkop "iload_3" 29 None false (* :396 *);
  mkop "imul" 104 None false (* :397 *);
  mkop "ineg" 116 None false (* :398 *);
  mkop "instanceof" 193 (Some (FStruct [cH])) true (* :399 *);
  mkop "invokedynamic" 186 (Some (FStruct [cH; cB; cB])) true (* :400 *);
  mkop "invokeinterface" 185 (Some (FStruct [cH; cB; cB])) true (* :401 *);
  mkop "invokespecial" 183 (Some (FStruct [cH])) true (* :402 *);
  mkop "invokestatic" 184 (Some (FStruct [cH])) true (* :403 *);
  mkop "invokevirtual" 182 (Some (FStruct [cH])) true (* :404 *);
  mkop "ior" 128 None false (* :405 *);
  mkop "irem" 112 None false (* :406 *);
  mkop "ireturn" 172 None false (* :407 *);
  mkop "ishl" 120 None false (* :408 *);
  mkop "ishr" 122 None false (* :409 *);
  mkop "istore" 54 (Some (FStruct [cB])) false (* :410 *);
  mkop "istore_0" 59 None false (* :411 *);
  mkop "istore_1" 60 None false (* :412 *);
  mkop "istore_2" 61 None false (* :413 *);
  mkop "istore_3" 62 None false (* :414 *);
  mkop "isub" 100 None false (* :415 *);
  mkop "iushr" 124 None false (* :416 *);
  mkop "ixor" 130 None false (* :417 *);
  mkop "jsr" 168 (Some (FStruct [ch])) false (* :419 *);
  mkop "jsr_w" 201 (Some (FStruct [ci])) false (* :420 *);
  mkop "l2d" 138 None false (* :422 *);
  mkop "l2f" 137 None false (* :423 *);
  mkop "l2i" 136 None false (* :424 *);
  mkop "ladd" 97 None false (* :425 *);
  mkop "laload" 47 None false (* :426 *);
  mkop "land" 127 None false (* :427 *);
  mkop "lastore" 80 None false (* :428 *);
  mkop "lcmp" 148 None false (* :429 *);
  mkop "lconst_0" 9 None false (* :430 *);
  mkop "lconst_1" 10 None false (* :431 *);
  mkop "ldc" 18 (Some (FStruct [cB])) true (* :432 *);
  mkop "ldc_w" 19 (Some (FStruct [cH])) true (* :433 *);
  mkop "ldc2_w" 20 (Some (FStruct [cH])) true (* :434 *);
  mkop "ldiv" 109 None false (* :435 *);
  mkop "lload" 22 (Some (FStruct [cB])) false (* :436 *);
  mkop "lload_0" 30 None false (* :437 *);
  mkop "lload_1" 31 None false (* :438 *);
  mkop "lload_2" 32 None false (* :439 *);
  mkop "lload_3" 33 None false (* :440 *);
  mkop "lmul" 105 None false (* :441 *);
  mkop "lneg" 117 None false (* :442 *);
  mkop "lookupswitch" 171 (Some FLookup) false (* :443 *);
  mkop "lor" 129 None false (* :444 *);
  mkop "lrem" 113 None false (* :445 *);
  mkop "lreturn" 173 None false (* :446 *);
  mkop "lshl" 121 None false (* :447 *);
  mkop "lshr" 123 None false (* :448 *);
  mkop "lstore" 55 (Some (FStruct [cB])) false (* :449 *);
  mkop "lstore_0" 63 None false (* :450 *);
  mkop "lstore_1" 64 None false (* :451 *);
  mkop "lstore_2" 65 None false (* :452 *);
  mkop "lstore_3" 66 None false (* :453 *);
  mkop "lsub" 101 None false (* :454 *);
  mkop "lushr" 125 None false (* :455 *);
  mkop "lxor" 131 None false (* :456 *);
  mkop "monitorentry" 194 None false (* :458 *);
  mkop "monitorexit" 195 None false (* :459 *);
  mkop "multianewarray" 197 (Some (FStruct [cH; cB])) false (* :460 *);
  mkop "new" 187 (Some (FStruct [cH])) true (* :462 *);
  mkop "newarray" 188 (Some (FStruct [cB])) false (* :463 *);
  mkop "nop" 0 None false (* :464 *);
  mkop "pop" 87 None false (* :466 *);
  mkop "pop2" 88 None false (* :467 *);
  mkop "putfield" 181 (Some (FStruct [cH])) true (* :468 *);
  mkop "putstatic" 179 (Some (FStruct [cH])) true (* :469 *);
  mkop "ret" 169 (Some (FStruct [cB])) false (* :471 *);
  mkop "return" 177 None false (* :472 *);
  mkop "saload" 53 None false (* :474 *);
  mkop "sastore" 86 None false (* :475 *);
  mkop "sipush" 17 (Some (FStruct [ch])) false (* :476 *);
  mkop "swap" 95 None false (* :477 *);
  mkop "tableswitch" 170 (Some FTable) false (* :479 *);
  mkop "wide" 196 (Some FWide) false (* :481 *)
].

(** __OPTABLE[code] for an integer key; a missing key is a KeyError
    (opcodes.py:124-125). *)
Definition op_by_code (code : Z) : res op :=
  match find (fun o => o_code o =? code) optable with
  | Some o => Ok o
  | None => Err KeyError
  end.

(** str.lower() as used by opcodes.py:135.  Simplification: only the characters
    whose lower case is ASCII are mapped (A-Z, and U+212A KELVIN SIGN, which
    lowers to k); all table names are ASCII, so no other character can match. *)
Definition lower1 (c : Z) : Z :=
  if (65 <=? c) && (c <=? 90) then c + 32 else if c =? 8490 then 107 else c.
Definition lower (s : str) : str := map lower1 s.

(** __OPTABLE[name], opcodes.py:124 *)
Definition op_by_name (n : str) : res op :=
  match find (fun o => seqb (o_name o) n) optable with
  | Some o => Ok o
  | None => Err KeyError
  end.

(** opcodes.py:130-135 *)
Definition get_opcode_by_name (n : str) : res Z :=
  o <- op_by_name (lower n) ;; Ok (o_code o).
(** opcodes.py:138-143 *)
Definition get_opname_by_code (c : Z) : res str :=
  o <- op_by_code c ;; Ok (o_name o).
(** opcodes.py:146-151 *)
Definition get_arg_format (c : Z) : res (option argfmt) :=
  o <- op_by_code c ;; Ok (o_fmt o).
(** opcodes.py:154-159 *)
Definition has_const_arg (c : Z) : res bool :=
  o <- op_by_code c ;; Ok (o_const o).

(** Arguments of a disassembled instruction.  A struct format gives a tuple of
    integers; lookupswitch gives (default, [(match, offset), ...]); tableswitch
    gives (default, low, high, [(offset,), ...]) where the 1-tuples of
    opcodes.py:202-204 are represented by their only element. *)
Inductive opargs :=
| AInts (l : list Z)
| ALookup (default : Z) (pairs : list (Z * Z))
| ATable (default low high : Z) (offs : list Z).

Record insn := mkinsn { i_off : nat; i_code : Z; i_args : opargs }.

(** _unpack, opcodes.py:162-168 *)
Definition unpack_at (f : fmt) (bc : bytes) (offset : nat) : res (list Z * nat) :=
  vs <- unpack_from f bc offset ;; Ok (vs, (offset + size f)%nat).

(** [jump = offset % 4; if jump: offset += 4 - jump], opcodes.py:176-178, 195-197 *)
Definition align4 (offset : nat) : nat :=
  if (offset mod 4 =? 0)%nat then offset else (offset + (4 - offset mod 4))%nat.

(** for _index in range(npairs): opcodes.py:183-185.  [fuel] bounds the number of
    iterations; each consumes eight bytes, so S (length bc) suffices. *)
Fixpoint read_pairs (fuel : nat) (n : Z) (bc : bytes) (offset : nat)
  : res (list (Z * Z) * nat) :=
  if n <=? 0 then Ok ([], offset) else
  match fuel with
  | O => Err OutOfFuel
  | S fu =>
      '(vs, offset') <- unpack_at [ci; ci] bc offset ;;
      match vs with
      | [a; b] => '(l, off'') <- read_pairs fu (n - 1) bc offset' ;; Ok ((a, b) :: l, off'')
      | _ => Err ValueError
      end
  end.

(** for _index in range((high - low) + 1): opcodes.py:202-204 *)
Fixpoint read_offs (fuel : nat) (n : Z) (bc : bytes) (offset : nat)
  : res (list Z * nat) :=
  if n <=? 0 then Ok ([], offset) else
  match fuel with
  | O => Err OutOfFuel
  | S fu =>
      '(vs, offset') <- unpack_at [ci] bc offset ;;
      match vs with
      | [a] => '(l, off'') <- read_offs fu (n - 1) bc offset' ;; Ok (a :: l, off'')
      | _ => Err ValueError
      end
  end.

(** _unpack_lookupswitch, opcodes.py:171-187 *)
Definition unpack_lookupswitch (bc : bytes) (offset : nat) : res (opargs * nat) :=
  '(vs, offset') <- unpack_at [ci; ci] bc (align4 offset) ;;
  match vs with
  | [default; npairs] =>
      '(switches, offset'') <- read_pairs (S (length bc)) npairs bc offset' ;;
      Ok (ALookup default switches, offset'')
  | _ => Err ValueError
  end.

(** _unpack_tableswitch, opcodes.py:190-206 *)
Definition unpack_tableswitch (bc : bytes) (offset : nat) : res (opargs * nat) :=
  '(vs, offset') <- unpack_at [ci; ci; ci] bc (align4 offset) ;;
  match vs with
  | [default; low; high] =>
      '(joffs, offset'') <- read_offs (S (length bc)) ((high - low) + 1) bc offset' ;;
      Ok (ATable default low high joffs, offset'')
  | _ => Err ValueError
  end.

Definition OP_iinc : Z := 132.                       (* opcodes.py:391 *)
(** The opcodes accepted after wide, opcodes.py:219-221: iload fload aload lload
    dload istore fstore astore lstore dstore ret. *)
Definition wide_codes : list Z := [21; 23; 25; 22; 24; 54; 56; 58; 55; 57; 169].

(** _unpack_wide, opcodes.py:209-228.  ord of an empty slice is a TypeError. *)
Definition unpack_wide (bc : bytes) (offset : nat) : res (opargs * nat) :=
  match nth_error bc offset with
  | None => Err TypeError
  | Some code =>
      if code =? OP_iinc then
        '(vs, off') <- unpack_at [cB; cH; ch] bc offset ;; Ok (AInts vs, off')
      else if existsb (Z.eqb code) wide_codes then
        '(vs, off') <- unpack_at [cB; cH] bc offset ;; Ok (AInts vs, off')
      else Err AssertionError
  end.

(** [args = tuple(); fmt = get_arg_format(code); if fmt: args, offset = fmt(bytecode, offset)],
    opcodes.py:250-253 *)
Definition dis_args (code : Z) (bc : bytes) (offset : nat) : res (opargs * nat) :=
  f <- get_arg_format code ;;
  match f with
  | None => Ok (AInts [], offset)
  | Some (FStruct f) => '(vs, off') <- unpack_at f bc offset ;; Ok (AInts vs, off')
  | Some FLookup => unpack_lookupswitch bc offset
  | Some FTable => unpack_tableswitch bc offset
  | Some FWide => unpack_wide bc offset
  end.

(** The while loop of disassemble, opcodes.py:241-255: instructions yielded so
    far and the exception that ended the generator, if any. *)
Fixpoint dis_loop (fuel : nat) (bc : bytes) (offset : nat) : list insn * option exn :=
  match nth_error bc offset with
  | None => ([], None)                                 (* offset >= end *)
  | Some code =>
      match fuel with
      | O => ([], Some OutOfFuel)
      | S fu =>
          match dis_args code bc (S offset) with
          | Err e => ([], Some e)
          | Ok (args, offset') =>
              let '(l, e) := dis_loop fu bc offset' in
              (mkinsn offset code args :: l, e)
          end
      end
  end.

(** disassemble, opcodes.py:231-255 *)
Definition disassemble (bc : bytes) : list insn * option exn :=
  dis_loop (length bc) bc 0.

(** tuple(disassemble(code)), __init__.py:1786: all or nothing. *)
Definition disassemble_all (bc : bytes) : res (list insn) :=
  match disassemble bc with
  | (l, None) => Ok l
  | (_, Some e) => Err e
  end.
