(** Specification of what a reader of an HTML page sees, independently of the
    templates: tables as an HTML user agent forms them, and what they should hold. *)
From Verif Require Import Base ConstPool_Spec Opcodes_Model Opcodes_Spec Descr_Spec Print_Spec Html_Model.

(** ** Parts of a page *)
Definition within (part page : list html) : Prop := exists before after, page = before ++ part ++ after.
Definition starts (tag : String.string) (t : html) : bool := match t with Open x _ => seqb x (lit tag) | _ => false end.
Definition has_table (page body : list html) : Prop :=
  exists attrs, within (Open (lit "table") attrs :: body ++ [Close (lit "table")]) page /\ existsb (starts "table") body = false.

(** ** Reading the rows of a table: a cell is (columns, rows, text).  As in HTML, the
    end of a cell or row that is not written is implied. *)
Definition number (s : str) : nat := Z.to_nat (fold_left (fun a c => a * 10 + (c - 48)) s 0).
Definition spans (name : String.string) (attrs : list (str * str)) : nat :=
  match find (fun a => seqb (fst a) (lit name)) attrs with Some a => number (snd a) | None => 1 end.
Definition gcell := (nat * nat * str)%type.
Definition is_cell (t : str) : bool := seqb t (lit "td") || seqb t (lit "th").
Definition is_row (t : str) : bool := seqb t (lit "tr").
(** the row and the cell that are open *)
Definition end_cell (row : list gcell) (cell : option gcell) : list gcell := match cell with Some c => row ++ [c] | None => row end.
Definition end_row (row : option (list gcell)) (cell : option gcell) : list (list gcell) :=
  match row with Some r => [end_cell r cell] | None => [] end.
Fixpoint read_rows (ts : list html) (row : option (list gcell)) (cell : option gcell) : list (list gcell) :=
  match ts with
  | [] => end_row row cell
  | Open t a :: ts' =>
      if is_row t then end_row row cell ++ read_rows ts' (Some []) None
      else if is_cell t then
        read_rows ts' (Some (end_cell (match row with Some r => r | None => [] end) cell)) (Some (spans "colspan" a, spans "rowspan" a, []))
      else read_rows ts' row cell
  | Close t :: ts' =>
      if is_row t then end_row row cell ++ read_rows ts' None None
      else if is_cell t then read_rows ts' (option_map (fun r => end_cell r cell) row) None
      else read_rows ts' row cell
  | Chars s :: ts' => read_rows ts' row (option_map (fun c => (fst c, snd c ++ s)) cell)
  | _ :: ts' => read_rows ts' row cell
  end.

(** ** Forming a table (HTML 4.01, 11.2.6; HTML 5, 4.9.12), with a fixed number of
    columns.  A column is free, or covered in the next [S n] rows by a cell from above.
    None: cells overlap, leave a hole or stick out. *)
Definition slot := option (nat * str).
Definition covers (n : nat) (t : str) : slot := match n with O => None | S n' => Some (n', t) end.
(** [wide]: the columns still to be covered by the last cell, its rows and text *)
Fixpoint form_row (cols : list slot) (wide : nat * nat * str) (cells : list gcell) : option (list str * list slot) :=
  match cols with
  | [] => match cells, wide with [], (O, _, _) => Some ([], []) | _, _ => None end
  | Some (n, t) :: cols' =>
      match wide with
      | (O, _, _) => match form_row cols' wide cells with Some (r, q) => Some (t :: r, covers n t :: q) | None => None end
      | _ => None
      end
  | None :: cols' =>
      match wide with
      | (S k, rows, t) => match form_row cols' (k, rows, t) cells with Some (r, q) => Some (t :: r, covers (rows - 1) t :: q) | None => None end
      | (O, _, _) =>
          match cells with
          | (S k, S rows, t) :: cells' =>
              match form_row cols' (k, S rows, t) cells' with Some (r, q) => Some (t :: r, covers rows t :: q) | None => None end
          | _ => None
          end
      end
  end.
Fixpoint form (cols : list slot) (rows : list (list gcell)) : option (list (list str) * list slot) :=
  match rows with
  | [] => Some ([], cols)
  | cells :: rows' =>
      match form_row cols (O, O, []) cells with
      | Some (r, q) => match form q rows' with Some (g, q') => Some (r :: g, q') | None => None end
      | None => None
      end
  end.
(** The texts of an [n]-column table, row by row *)
Definition reads_as (n : nat) (body : list html) (grid : list (list str)) : Prop :=
  form (repeat None n) (read_rows body None None) = Some (grid, repeat None n).
Definition shows_table (page : list html) (n : nat) (grid : list (list str)) : Prop :=
  exists body, has_table page body /\ reads_as n body grid.

(** ** Code *)
Definition commas_sp (l : list str) : str := concat_with (lit ", ") l.
Definition arg_texts (a : opargs) : list str :=
  match a with
  | AInts l => map dec l
  | ATable d low high offs => [dec d; dec low; dec high; lit "[" ++ commas_sp (map (fun o => lit "(" ++ dec o ++ lit ",)") offs) ++ lit "]"]
  | ALookup d pairs => [dec d; lit "[" ++ commas_sp (map (fun x => lit "(" ++ dec (fst x) ++ lit ", " ++ dec (snd x) ++ lit ")") pairs) ++ lit "]"]
  end.
(** Offset, mnemonic and operands; of instructions referring to a constant the index *)
Definition op_row (i : insn) : list str :=
  [dec (Z.of_nat (i_off i)); match jvm_name (i_code i) with Some n => n | None => [] end;
   match jvm_const (i_code i), i_args i with
   | Some true, AInts (x :: _) => lit "#" ++ dec x
   | _, a => commas_sp (arg_texts a)
   end].
Definition blanks (n : nat) : list str := repeat [] n.
(** The [i]-th row of one side of a line: line number and instruction *)
Definition side_row (g : option (Z * list insn)) (i : nat) : list str :=
  match g with
  | None | Some (_, []) => blanks 4
  | Some (line, is) => dec line :: match nth_error is i with Some x => op_row x | None => blanks 3 end
  end.
Definition side_size (g : option (Z * list insn)) : nat := match g with Some (_, is) => length is | None => 0 end.
(** The rows of a relative line: its number, left and right *)
Definition line_grid (e : Z * (option (Z * list insn) * option (Z * list insn))) : list (list str) :=
  let '(rel, (l, r)) := e in
  map (fun i => dec rel :: side_row l i ++ side_row r i) (seq 0 (Nat.max (side_size l) (side_size r))).
Definition dual_grid_head : list (list str) :=
  [map lit ["Relative"; "Original"; "Original"; "Original"; "Original"; "Modified"; "Modified"; "Modified"; "Modified"]%string;
   map lit ["line"; "line"; "offset"; "opcode"; "args"; "line"; "offset"; "opcode"; "args"]%string].
Definition single_grid_head : list (list str) :=
  [map lit ["Relative"; "Method Code"; "Method Code"; "Method Code"; "Method Code"]%string;
   map lit ["line"; "line"; "offset"; "opcode"; "args"]%string].
Definition single_grid (g : Z * Z * list insn) : list (list str) :=
  let '(line, rel, is) := g in map (fun i => dec rel :: dec line :: op_row i) is.
(** Opcodes whose name or operands the tool's table gets wrong: monitorenter,
    multianewarray (see C07, C63) *)
Definition usual_code (i : insn) : bool := negb (i_code i =? 194) && negb (i_code i =? 197).

(** ** Values *)

(** Text as markup: the characters with a meaning of their own as entities *)
Definition esc (s : str) : str :=
  flat_map (fun c => if c =? 38 then lit "&amp;" else if c =? 60 then lit "&lt;" else if c =? 62 then lit "&gt;" else [c]) s.
Definition shows_heading (page : list html) (s : str) : Prop := within [Open (lit "h3") []; Chars s; Close (lit "h3")] page.
(** A part of the page about one thing, which its only heading names *)
Definition section (h : list html) (s : str) : Prop :=
  exists attrs body, h = Open (lit "div") attrs :: Open (lit "h3") [] :: Chars s :: Close (lit "h3") :: body ++ [Close (lit "div")] /\
  existsb (starts "h3") body = false.
(** Four hexadecimal digits, and the words *)
Definition hex_digits (f : Z) : str :=
  map (fun k => let d := f / 16 ^ k mod 16 in if d <? 10 then 48 + d else 87 + d) [3; 2; 1; 0].
Definition flags_shown (table : list (Z * String.string)) (f : Z) : str :=
  lit "0x" ++ hex_digits f ++ lit ": " ++ concat_with (lit " ") (keywords table f).
Definition parens (l : list str) : str := lit "(" ++ commas_sp l ++ lit ")".
Definition truth (b : bool) : str := if b then lit "True" else lit "False".
Definition sig_shown (s : option str) : str := match s with Some (c :: s) => esc (c :: s) | _ => lit "(None)" end.
Definition has_text (s : option str) : Prop := exists c t, s = Some (c :: t).
(** "name(args):type" *)
Definition method_shown (n : str) (args : list jtype) (ret : option jtype) : str :=
  n ++ parens (map type_name args) ++ lit ":" ++ ret_name ret.
(** The rows about a value: the old and the new one if they differ; else the value,
    where it is [worth] a row *)
Inductive value_rows (label : String.string) (same worth : Prop) (old new : str) : list (list str) -> Prop :=
| rows_differ : ~ same -> value_rows label same worth old new [[lit label; old]; [lit label; new]]
| rows_same : same -> worth -> value_rows label same worth old new [[lit label; old]]
| rows_none : same -> ~ worth -> value_rows label same worth old new [].

(** Kinds of classes among the words *)
Definition class_flags_shown (f : Z) : str :=
  lit "0x" ++ hex_digits f ++ lit ": " ++ concat_with (lit " ")
    (keywords [(0, "public"); (4, "final"); (10, "abstract")]%string f ++
     (if Z.testbit f 9 then [class_kind f] else []) ++ keywords [(14, "enum")]%string f).
Definition or_none (s : str) : str := match s with [] => lit "(None)" | _ => s end.
Definition version_shown (v : Z * Z) : str := lit "Major: " ++ dec (fst v) ++ lit ", Minor: " ++ dec (snd v).

(** ** Constants *)
Section Consts.
Variable text : jconst -> str * str.
Definition const_cells (k : option jconst) : list str := match k with Some k => [fst (text k); esc (snd (text k))] | None => blanks 2 end.
Definition looks_same (a b : option jconst) : bool :=
  match a, b with
  | None, None => true
  | Some a, Some b => seqb (fst (text a)) (fst (text b)) && seqb (snd (text a)) (snd (text b))
  | _, _ => false
  end.
(** An index, what is left, and what is right where it differs *)
Definition const_row (l r : list jconst) (i : Z) : list str :=
  dec i :: const_cells (jat l i) ++ (if looks_same (jat l i) (jat r i) then blanks 2 else const_cells (jat r i)).
Definition dual_const_head : list str := map lit ["Index"; "Original Type"; "Original Value"; "Modified Type"; "Modified Value"]%string.
Definition const_head : list str := map lit ["Index"; "Type"; "Value"]%string.
(** The constants there are, each with its index *)
Fixpoint const_rows (i : Z) (l : list jconst) : list (list str) :=
  match l with [] => [] | k :: l' => (dec i :: const_cells (Some k)) :: const_rows (i + jwidth k) l' end.
End Consts.
Definition zero_const (k : jconst) : bool := match k with JInteger z | JModule z | JPackage z => z =? 0 | _ => false end.
Fixpoint count_up (i : Z) (n : nat) : list Z := match n with O => [] | S n' => i :: count_up (i + 1) n' end.

(** ** Well-formed XHTML: every element is closed where it should be, and no attribute
    is given twice *)
Fixpoint distinct_names (l : list (str * str)) : bool :=
  match l with [] => true | a :: l' => negb (existsb (fun b => seqb (fst a) (fst b)) l') && distinct_names l' end.
Fixpoint well_formed (h : list html) (opened : list str) : bool :=
  match h with
  | [] => match opened with [] => true | _ => false end
  | Open t a :: h' => distinct_names a && well_formed h' (t :: opened)
  | Single _ a :: h' => distinct_names a && well_formed h' opened
  | Close t :: h' => match opened with u :: o' => seqb t u && well_formed h' o' | [] => false end
  | Cut _ :: _ => false
  | _ :: h' => well_formed h' opened
  end.
