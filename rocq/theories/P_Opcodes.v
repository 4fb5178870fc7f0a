(** Properties C04 - C08: opcode table and disassembler. *)
From Verif Require Import Base Pack_Model Pack_Spec Opcodes_Model Opcodes_Spec Opcodes_Proofs.
From Coq Require Import Sorting.Sorted.

(** C04. Every code 0..201 is defined, every other integer raises KeyError. *)
Theorem C04_codes_defined : forall c : Z,
  (0 <= c < 202 -> exists n f k, get_opname_by_code c = Ok n /\ get_arg_format c = Ok f
                                 /\ has_const_arg c = Ok k) /\
  (~ (0 <= c < 202) -> get_opname_by_code c = Err KeyError /\ get_arg_format c = Err KeyError
                       /\ has_const_arg c = Err KeyError).
Proof. exact code_defined. Qed.
Print Assumptions C04_codes_defined.

(** C04. Mnemonic of a code, read back in any letter case, gives the code. *)
Theorem C04_name_inverse : forall (c : Z) (n : str),
  get_opname_by_code c = Ok n ->
  lower n = n /\ forall n', lower n' = n -> get_opcode_by_name n' = Ok c.
Proof. exact code_name_code. Qed.
Print Assumptions C04_name_inverse.

Example C04_name_inverse_ex :
  get_opname_by_code 182 = Ok (lit "invokevirtual") /\ lower (lit "InvokeVirtual") = lit "invokevirtual".
Proof. vm_compute. auto. Qed.

Theorem C04_code_inverse : forall (n : str) (c : Z),
  get_opcode_by_name n = Ok c -> get_opname_by_code c = Ok (lower n).
Proof. exact name_code_name. Qed.
Print Assumptions C04_code_inverse.

Example C04_code_inverse_ex : get_opcode_by_name (lit "TABLESWITCH") = Ok 170.
Proof. reflexivity. Qed.

(** C04. The operand layout of every code is the JVM's (switch/wide kinds,
    number, width and order of the operands; the only difference is that bipush
    is unsigned, see C08). *)
Theorem C04_layout : forall c : Z,
  get_arg_format c = match jvm_layout c with
                     | None => Err KeyError
                     | Some (Ops []) => Ok None
                     | Some (Ops ks) => Ok (Some (FStruct (shown_fmt c ks)))
                     | Some TableSwitch => Ok (Some FTable)
                     | Some LookupSwitch => Ok (Some FLookup)
                     | Some Wide => Ok (Some FWide)
                     end.
Proof. exact get_arg_format_layout. Qed.
Print Assumptions C04_layout.

(** C63. Mnemonics are the JVM's, but for code 194. *)
Theorem C63_names_jvm_partial : forall c : Z, c <> 194 ->
  get_opname_by_code c = match jvm_name c with Some n => Ok n | None => Err KeyError end.
Proof. exact names_jvm. Qed.
Print Assumptions C63_names_jvm_partial.

Theorem C63_monitorenter_refuted : exists c n, jvm_name c = Some n /\ get_opname_by_code c <> Ok n
  /\ get_opcode_by_name n = Err KeyError.
Proof. exact monitorenter. Qed.
Print Assumptions C63_monitorenter_refuted.

(** C63. has_const_arg tells whether the first operand indexes the constant pool,
    but for multianewarray. *)
Theorem C63_const_arg_partial : forall c : Z, c <> 197 ->
  has_const_arg c = match jvm_const c with Some b => Ok b | None => Err KeyError end.
Proof. exact const_jvm. Qed.
Print Assumptions C63_const_arg_partial.

Theorem C63_multianewarray_refuted :
  exists c, jvm_const c = Some true /\ has_const_arg c = Ok false.
Proof. exact multianewarray. Qed.
Print Assumptions C63_multianewarray_refuted.

(** C05, C06. A byte string disassembles without exception into [l] exactly when
    it is the concatenation of encodings of the instructions of [l], each at its
    own offset. *)
Theorem C05_disassembly_tiles : forall (bc : bytes) (l : list insn), all_bytes bc ->
  (disassemble bc = (l, None) <-> tiles 0 l bc).
Proof. exact (fun bc l => disassemble_iff bc l). Qed.
Print Assumptions C05_disassembly_tiles.

Definition ex_code : bytes :=
  [3; 170; 0; 0;  0;0;0;25; 0;0;0;1; 0;0;0;2; 0;0;0;19; 0;0;0;22; 196; 132; 1; 0; 255; 255; 177].
Definition ex_insns : list insn :=
  [mkinsn 0 3 (AInts []); mkinsn 1 170 (ATable 25 1 2 [19; 22]);
   mkinsn 24 196 (AInts [132; 256; -1]); mkinsn 30 177 (AInts [])].

Example C05_disassembly_tiles_ex : all_bytes ex_code /\ disassemble ex_code = (ex_insns, None).
Proof. split; [repeat constructor; unfold is_byte; lia|vm_compute; reflexivity]. Qed.

(** C05. Offsets start at 0 and strictly increase; each code is the byte there. *)
Theorem C05_offsets : forall (bc : bytes) (l : list insn), all_bytes bc ->
  disassemble bc = (l, None) ->
  StronglySorted lt (map i_off l) /\
  Forall (fun i => (i_off i < length bc)%nat /\ nth_error bc (i_off i) = Some (i_code i)) l /\
  (bc <> [] -> exists i l', l = i :: l' /\ i_off i = 0%nat).
Proof. exact disassemble_facts. Qed.
Print Assumptions C05_offsets.

(** C06. *)
Theorem C06_disassemble_assemble : forall l : list jinsn,
  forallb jinsn_ok l = true -> disassemble (assemble 0 l) = (show 0 l, None).
Proof. exact disassemble_assemble. Qed.
Print Assumptions C06_disassemble_assemble.

Example C06_disassemble_assemble_ex :
  forallb jinsn_ok [JOp 16 [-1]; JTable 5 (-1) [7; 8; -9]; JLookup 0 [(1, 2)]; JWide 21 300;
                    JWideIinc 4 (-7); JOp 185 [5; 1; 0]] = true.
Proof. reflexivity. Qed.

(** C07. Whatever the bytes, the instructions yielded tile a prefix; there are at
    most as many as bytes; an exception is one of the four documented ones, is
    raised exactly when the bytes are no instruction sequence, and never follows
    a partly read instruction. *)
Theorem C07_outcome : forall (bc : bytes) (l : list insn) (e : option exn), all_bytes bc ->
  disassemble bc = (l, e) ->
  exists done rest, bc = done ++ rest /\ tiles 0 l done /\ (length l <= length done)%nat /\
    match e with
    | None => rest = []
    | Some x => (x = KeyError \/ x = StructError \/ x = TypeError \/ x = AssertionError)
                /\ rest <> [] /\ (forall l', ~ tiles 0 l' bc)
    end.
Proof. exact disassemble_outcome. Qed.
Print Assumptions C07_outcome.

Example C07_outcome_ex :
  disassemble [3; 171; 0; 0; 0;0;0;0; 127;255;255;255; 0;0] = ([mkinsn 0 3 (AInts [])], Some StructError).
Proof. vm_compute. reflexivity. Qed.

(** C08. Operands of every fixed-layout opcode but bipush decode to the value
    the JVM gives them (signed kinds as signed numbers). *)
Theorem C08_signedness_partial : forall (c : Z) (ks : list okind) (ops : list Z),
  c <> 16 -> jvm_layout c = Some (Ops ks) -> fields_ok (map kfmt ks) ops = true ->
  disassemble (c :: enc_fields (map kfmt ks) ops) = ([mkinsn 0 c (AInts ops)], None).
Proof. exact signedness. Qed.
Print Assumptions C08_signedness_partial.

Example C08_signedness_ex :
  jvm_layout 132 = Some (Ops [U1; S1]) /\ fields_ok (map kfmt [U1; S1]) [200; -100] = true.
Proof. vm_compute. auto. Qed.

(** C08 is false for bipush: a negative immediate is shown as v + 256. *)
Theorem C08_bipush_refuted : exists v, field_ok cb v = true /\
  disassemble (16 :: enc_fields (map kfmt [S1]) [v]) <> ([mkinsn 0 16 (AInts [v])], None).
Proof. exact bipush_refuted. Qed.
Print Assumptions C08_bipush_refuted.

Theorem C08_bipush_shown : forall v, field_ok cb v = true ->
  disassemble (16 :: enc_fields (map kfmt [S1]) [v]) = ([mkinsn 0 16 (AInts [v mod 256])], None).
Proof. exact bipush_shown. Qed.
Print Assumptions C08_bipush_shown.
