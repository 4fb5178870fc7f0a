(** Specification of JVM instruction encoding, written from the JVM
    specification (chapter 6, "The Java Virtual Machine Instruction Set"),
    independently of opcodes.py. *)
From Verif Require Import Base Pack_Model Pack_Spec Opcodes_Model.

(** Operand kinds: unsigned/signed of 1, 2, 4 bytes; CP1/CP2 are constant pool
    indices of one / two bytes. *)
Inductive okind := U1 | S1 | U2 | S2 | S4 | CP1 | CP2.
Inductive olayout := Ops (l : list okind) | TableSwitch | LookupSwitch | Wide.

Definition kfmt (k : okind) : fcode :=
  match k with
  | U1 | CP1 => cB | S1 => cb | U2 | CP2 => cH | S2 => ch | S4 => ci
  end.
Definition kcp (k : okind) : bool := match k with CP1 | CP2 => true | _ => false end.

Definition N (s : String.string) := (s, Ops []).
Definition O_ (s : String.string) l := (s, Ops l).

(** Mnemonics and operand layouts of opcodes 0 .. 201, in order. *)
Definition jvm_table : list (String.string * olayout) := [
  (* 0 *) N "nop"; N "aconst_null"; N "iconst_m1"; N "iconst_0"; N "iconst_1"; N "iconst_2";
  N "iconst_3"; N "iconst_4"; N "iconst_5"; N "lconst_0";
  (* 10 *) N "lconst_1"; N "fconst_0"; N "fconst_1"; N "fconst_2"; N "dconst_0"; N "dconst_1";
  O_ "bipush" [S1]; O_ "sipush" [S2]; O_ "ldc" [CP1]; O_ "ldc_w" [CP2];
  (* 20 *) O_ "ldc2_w" [CP2]; O_ "iload" [U1]; O_ "lload" [U1]; O_ "fload" [U1]; O_ "dload" [U1];
  O_ "aload" [U1]; N "iload_0"; N "iload_1"; N "iload_2"; N "iload_3";
  (* 30 *) N "lload_0"; N "lload_1"; N "lload_2"; N "lload_3"; N "fload_0"; N "fload_1"; N "fload_2";
  N "fload_3"; N "dload_0"; N "dload_1";
  (* 40 *) N "dload_2"; N "dload_3"; N "aload_0"; N "aload_1"; N "aload_2"; N "aload_3"; N "iaload";
  N "laload"; N "faload"; N "daload";
  (* 50 *) N "aaload"; N "baload"; N "caload"; N "saload"; O_ "istore" [U1]; O_ "lstore" [U1];
  O_ "fstore" [U1]; O_ "dstore" [U1]; O_ "astore" [U1]; N "istore_0";
  (* 60 *) N "istore_1"; N "istore_2"; N "istore_3"; N "lstore_0"; N "lstore_1"; N "lstore_2";
  N "lstore_3"; N "fstore_0"; N "fstore_1"; N "fstore_2";
  (* 70 *) N "fstore_3"; N "dstore_0"; N "dstore_1"; N "dstore_2"; N "dstore_3"; N "astore_0";
  N "astore_1"; N "astore_2"; N "astore_3"; N "iastore";
  (* 80 *) N "lastore"; N "fastore"; N "dastore"; N "aastore"; N "bastore"; N "castore"; N "sastore";
  N "pop"; N "pop2"; N "dup";
  (* 90 *) N "dup_x1"; N "dup_x2"; N "dup2"; N "dup2_x1"; N "dup2_x2"; N "swap"; N "iadd"; N "ladd";
  N "fadd"; N "dadd";
  (* 100 *) N "isub"; N "lsub"; N "fsub"; N "dsub"; N "imul"; N "lmul"; N "fmul"; N "dmul"; N "idiv";
  N "ldiv";
  (* 110 *) N "fdiv"; N "ddiv"; N "irem"; N "lrem"; N "frem"; N "drem"; N "ineg"; N "lneg"; N "fneg";
  N "dneg";
  (* 120 *) N "ishl"; N "lshl"; N "ishr"; N "lshr"; N "iushr"; N "lushr"; N "iand"; N "land"; N "ior";
  N "lor";
  (* 130 *) N "ixor"; N "lxor"; O_ "iinc" [U1; S1]; N "i2l"; N "i2f"; N "i2d"; N "l2i"; N "l2f"; N "l2d";
  N "f2i";
  (* 140 *) N "f2l"; N "f2d"; N "d2i"; N "d2l"; N "d2f"; N "i2b"; N "i2c"; N "i2s"; N "lcmp"; N "fcmpl";
  (* 150 *) N "fcmpg"; N "dcmpl"; N "dcmpg"; O_ "ifeq" [S2]; O_ "ifne" [S2]; O_ "iflt" [S2];
  O_ "ifge" [S2]; O_ "ifgt" [S2]; O_ "ifle" [S2]; O_ "if_icmpeq" [S2];
  (* 160 *) O_ "if_icmpne" [S2]; O_ "if_icmplt" [S2]; O_ "if_icmpge" [S2]; O_ "if_icmpgt" [S2];
  O_ "if_icmple" [S2]; O_ "if_acmpeq" [S2]; O_ "if_acmpne" [S2]; O_ "goto" [S2]; O_ "jsr" [S2];
  O_ "ret" [U1];
  (* 170 *) ("tableswitch", TableSwitch); ("lookupswitch", LookupSwitch); N "ireturn"; N "lreturn";
  N "freturn"; N "dreturn"; N "areturn"; N "return"; O_ "getstatic" [CP2]; O_ "putstatic" [CP2];
  (* 180 *) O_ "getfield" [CP2]; O_ "putfield" [CP2]; O_ "invokevirtual" [CP2];
  O_ "invokespecial" [CP2]; O_ "invokestatic" [CP2]; O_ "invokeinterface" [CP2; U1; U1];
  O_ "invokedynamic" [CP2; U1; U1]; O_ "new" [CP2]; O_ "newarray" [U1]; O_ "anewarray" [CP2];
  (* 190 *) N "arraylength"; N "athrow"; O_ "checkcast" [CP2]; O_ "instanceof" [CP2];
  N "monitorenter"; N "monitorexit"; ("wide", Wide); O_ "multianewarray" [CP2; U1]; O_ "ifnull" [S2];
  O_ "ifnonnull" [S2];
  (* 200 *) O_ "goto_w" [S4]; O_ "jsr_w" [S4]
]%string.

Definition jvm_entry (code : Z) : option (String.string * olayout) :=
  if code <? 0 then None else nth_error jvm_table (Z.to_nat code).

Definition jvm_layout (code : Z) : option olayout :=
  match jvm_entry code with Some (_, l) => Some l | None => None end.

(** Mnemonic of an opcode. *)
Definition jvm_name (c : Z) : option str :=
  match jvm_entry c with Some (n, _) => Some (lit n) | None => None end.

(** Does the first operand index the constant pool? *)
Definition jvm_const (c : Z) : option bool :=
  match jvm_layout c with
  | Some (Ops (k :: _)) => Some (kcp k)
  | Some _ => Some false
  | None => None
  end.

(** Operand fields shown by the disassembler.  They are the JVM's, except that
    bipush (16) is shown unsigned; see C08. *)
Definition shown_fmt (code : Z) (l : list okind) : fmt :=
  if code =? 16 then [cB] else map kfmt l.

(** Number of padding bytes after a switch opcode located at [off]. *)
Definition pad_len (off : nat) : nat := (3 - off mod 4)%nat.

(** Opcodes that may follow wide with a single index operand (JVMS 6.5 wide). *)
Definition jvm_wide_codes : list Z :=
  [21 (*iload*); 22 (*lload*); 23 (*fload*); 24 (*dload*); 25 (*aload*);
   54 (*istore*); 55 (*lstore*); 56 (*fstore*); 57 (*dstore*); 58 (*astore*); 169 (*ret*)].

(** [insn_bytes i chunk]: the bytes [chunk] encode instruction [i] when it is
    located at offset [i_off i]. *)
Definition insn_bytes (i : insn) (chunk : bytes) : Prop :=
  exists body, chunk = i_code i :: body /\
  match jvm_layout (i_code i) with
  | None => False
  | Some (Ops ks) =>
      exists vs, i_args i = AInts vs /\
        fields_ok (shown_fmt (i_code i) ks) vs = true /\
        body = enc_fields (shown_fmt (i_code i) ks) vs
  | Some TableSwitch =>
      exists pad default low high offs,
        i_args i = ATable default low high offs /\
        length pad = pad_len (i_off i) /\
        fields_ok [ci; ci; ci] [default; low; high] = true /\
        Forall (fun o => field_ok ci o = true) offs /\
        Z.of_nat (length offs) = Z.max 0 (high - low + 1) /\
        body = pad ++ enc_fields [ci; ci; ci] [default; low; high]
                   ++ concat (map (enc_field ci) offs)
  | Some LookupSwitch =>
      exists pad default n pairs,
        i_args i = ALookup default pairs /\
        length pad = pad_len (i_off i) /\
        fields_ok [ci; ci] [default; n] = true /\
        Forall (fun p => field_ok ci (fst p) = true /\ field_ok ci (snd p) = true) pairs /\
        Z.of_nat (length pairs) = Z.max 0 n /\
        body = pad ++ enc_fields [ci; ci] [default; n]
                   ++ concat (map (fun p => enc_field ci (fst p) ++ enc_field ci (snd p)) pairs)
  | Some Wide =>
      (exists c idx, In c jvm_wide_codes /\ i_args i = AInts [c; idx] /\
         field_ok cH idx = true /\ body = c :: enc_field cH idx) \/
      (exists idx delta, i_args i = AInts [132; idx; delta] /\
         field_ok cH idx = true /\ field_ok ch delta = true /\
         body = 132 :: enc_field cH idx ++ enc_field ch delta)
  end.

(** [tiles off l bc]: the byte string [bc], located at offset [off], is the
    concatenation of encodings of the instructions [l], each at its own offset,
    with no gap, overlap or remainder. *)
Inductive tiles : nat -> list insn -> bytes -> Prop :=
| tiles_nil off : tiles off [] []
| tiles_cons off i l chunk rest :
    i_off i = off ->
    insn_bytes i chunk ->
    tiles (off + length chunk) l rest ->
    tiles off (i :: l) (chunk ++ rest).

(** Assembler for instruction streams (switch padding is zero, as the JVM
    specification allows). *)
Inductive jinsn :=
| JOp (code : Z) (ops : list Z)
| JTable (default low : Z) (offs : list Z)
| JLookup (default : Z) (pairs : list (Z * Z))
| JWide (code idx : Z)
| JWideIinc (idx delta : Z).

Definition jinsn_ok (j : jinsn) : bool :=
  match j with
  | JOp code ops =>
      match jvm_layout code with
      | Some (Ops ks) => fields_ok (map kfmt ks) ops
      | _ => false
      end
  | JTable default low offs =>
      let high := low + Z.of_nat (length offs) - 1 in
      fields_ok [ci; ci; ci] [default; low; high] && forallb (field_ok ci) offs
  | JLookup default pairs =>
      fields_ok [ci; ci] [default; Z.of_nat (length pairs)]
      && forallb (fun p => field_ok ci (fst p) && field_ok ci (snd p)) pairs
  | JWide code idx => existsb (Z.eqb code) jvm_wide_codes && field_ok cH idx
  | JWideIinc idx delta => field_ok cH idx && field_ok ch delta
  end.

Definition assemble1 (off : nat) (j : jinsn) : bytes :=
  match j with
  | JOp code ops =>
      match jvm_layout code with
      | Some (Ops ks) => code :: enc_fields (map kfmt ks) ops
      | _ => []
      end
  | JTable default low offs =>
      170 :: repeat 0 (pad_len off)
        ++ enc_fields [ci; ci; ci] [default; low; low + Z.of_nat (length offs) - 1]
        ++ concat (map (enc_field ci) offs)
  | JLookup default pairs =>
      171 :: repeat 0 (pad_len off)
        ++ enc_fields [ci; ci] [default; Z.of_nat (length pairs)]
        ++ concat (map (fun p => enc_field ci (fst p) ++ enc_field ci (snd p)) pairs)
  | JWide code idx => 196 :: code :: enc_field cH idx
  | JWideIinc idx delta => 196 :: 132 :: enc_field cH idx ++ enc_field ch delta
  end.

Fixpoint assemble (off : nat) (l : list jinsn) : bytes :=
  match l with
  | [] => []
  | j :: l' => let b := assemble1 off j in b ++ assemble (off + length b) l'
  end.

(** What the disassembler is expected to show for an instruction: the same
    operands, bipush's signed immediate being shown modulo 256. *)
Definition show1 (off : nat) (j : jinsn) : insn :=
  match j with
  | JOp code ops => mkinsn off code (AInts (if code =? 16 then map (fun v => v mod 256) ops else ops))
  | JTable default low offs =>
      mkinsn off 170 (ATable default low (low + Z.of_nat (length offs) - 1) offs)
  | JLookup default pairs => mkinsn off 171 (ALookup default pairs)
  | JWide code idx => mkinsn off 196 (AInts [code; idx])
  | JWideIinc idx delta => mkinsn off 196 (AInts [132; idx; delta])
  end.

Fixpoint show (off : nat) (l : list jinsn) : list insn :=
  match l with
  | [] => []
  | j :: l' => show1 off j :: show (off + length (assemble1 off j)) l'
  end.
