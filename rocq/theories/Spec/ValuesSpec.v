(** The values a column can have, and the values that types of the target languages can hold.
    Nothing here looks at the tool's code.

    Values are as exact as the types: a number is held if that very number can be represented.
    Ranges of dates are not part of it, a time is a time of day. *)
From Coq Require Import String Ascii List NArith ZArith Bool.
From Verif.Model Require Import GoString Octopus Mysql.
From Verif.Spec Require Import MysqlGrammar MysqlSpec ServerSpec KotlinSpec GraphqlSpec SqlalchemySpec.
Import ListNotations.
Local Open Scope string_scope.

Inductive value :=
| VNull
(** a bit pattern; truth values are single bits *)
| VBits (n : N)
| VInt (z : Z)
(** [d] / 10^[s] *)
| VDecimal (d : Z) (s : N)
(** [m] * 2^[e] *)
| VFloat (m e : Z)
(** code points *)
| VText (l : list N)
(** a value of an enumeration, some values of a set *)
| VMember (s : string) | VMembers (l : list string)
(** that many bytes *)
| VBytes (n : N)
| VDate (y m d : N) | VTime (s : N) | VStamp (y m d s : N) | VYear (y : N)
| VJson (s : string) | VShape (s : string).

(** ** Sets of values *)
Definition vals := value -> Prop.

Definition bits (k : N) : vals := fun v => match v with VBits n => (n < 2 ^ k)%N | _ => False end.
(** two's complement *)
Definition ints (bytes : Z) : vals := fun v =>
  match v with VInt z => (- 2 ^ (8 * bytes - 1) <= z < 2 ^ (8 * bytes - 1))%Z | _ => False end.
(** at most [p] digits, at most [s] of them behind the point *)
Definition decimals (p s : N) : vals := fun v =>
  match v with
  | VDecimal d k => (k <= s)%N /\ (Z.abs d * 10 ^ (Z.of_N s - Z.of_N k) < 10 ^ Z.of_N p)%Z
  | _ => False
  end.
(** IEEE 754 *)
Definition single (m e : Z) : Prop := (Z.abs m < 2 ^ 24 /\ -149 <= e <= 104)%Z.
Definition double (m e : Z) : Prop := (Z.abs m < 2 ^ 53 /\ -1074 <= e <= 971)%Z.
Definition floats (P : Z -> Z -> Prop) : vals := fun v => match v with VFloat m e => P m e | _ => False end.
(** at most [p] digits, [s] of them behind the point: |m| * 2^e * 10^s < 10^p *)
Definition below (p s : N) (m e : Z) : Prop :=
  (Z.abs m * 2 ^ Z.max e 0 * 10 ^ Z.of_N s < 10 ^ Z.of_N p * 2 ^ Z.max (- e) 0)%Z.
Definition texts (P : list N -> Prop) : vals := fun v => match v with VText l => P l | _ => False end.
Definition longest (n : N) (l : list N) : Prop := (N.of_nat (length l) <= n)%N.
(** UTF-8 *)
Definition utf8_size (c : N) : N :=
  (if N.ltb c 128 then 1 else if N.ltb c 2048 then 2 else if N.ltb c 65536 then 3 else 4)%N.
Definition size_of (l : list N) : N := fold_right (fun c k => utf8_size c + k)%N 0%N l.
Definition at_most (n : N) (l : list N) : Prop := (size_of l <= n)%N.
Definition bytes (n : N) : vals := fun v => match v with VBytes k => (k <= n)%N | _ => False end.
Definition dates : vals := fun v => match v with VDate _ _ _ => True | _ => False end.
Definition times : vals := fun v => match v with VTime s => (s < 86400)%N | _ => False end.
Definition stamps : vals := fun v => match v with VStamp _ _ _ s => (s < 86400)%N | _ => False end.
Definition years : vals := fun v => match v with VYear _ => True | _ => False end.
Definition members (l : list string) : vals := fun v => match v with VMember s => In s l | _ => False end.
Definition subsets (l : list string) : vals := fun v =>
  match v with VMembers k => forall s, In s k -> In s l | _ => False end.
Definition jsons : vals := fun v => match v with VJson _ => True | _ => False end.
Definition shapes : vals := fun v => match v with VShape _ => True | _ => False end.
Definition nothing : vals := fun _ => False.
Definition null : vals := fun v => v = VNull.
Definition either (A B : vals) : vals := fun v => A v \/ B v.
Definition not_null : vals := fun v => v <> VNull.
Definition holds_all (A B : vals) : Prop := forall v, A v -> B v.

(** largest length with [k] length bits *)
Definition top (k : N) : N := (2 ^ k - 1)%N.

(** ** Columns *)

(** docs/octopus-format.md, DataTypes; sizes that are not given are those of MySQL *)
Definition type_values (c : column) : vals :=
  let size := c_size c in
  let one := if N.eqb size 0 then 1%N else size in
  let reals P := floats (fun m e => P m e /\ (size = 0%N \/ below size (c_scale c) m e)) in
  match c_type c with
  | "boolean" => bits 1
  | "bit" => bits one
  | "int8" => ints 1 | "int16" => ints 2 | "int24" => ints 3 | "int32" => ints 4 | "int64" => ints 8
  | "decimal" => if N.eqb size 0 then decimals 10 0 else decimals size (c_scale c)
  | "float" => reals single
  | "double" => reals double
  | "char" => texts (longest one)
  | "varchar" => texts (fun l => size = 0%N \/ longest size l)
  | "text8" => texts (at_most (top 8)) | "text16" => texts (at_most (top 16))
  | "text24" => texts (at_most (top 24)) | "text32" => texts (at_most (top 32))
  | "binary" => bytes one
  | "varbinary" => bytes size
  | "blob8" => bytes (top 8) | "blob16" => bytes (top 16) | "blob24" => bytes (top 24) | "blob32" => bytes (top 32)
  | "date" => dates | "time" => times | "datetime" => stamps | "year" => years
  | "enum" => members (c_values c) | "set" => subsets (c_values c)
  | "json" => jsons
  | "geometry" | "point" => shapes
  | _ => nothing
  end.
(** keys are never null *)
Definition has_value (c : column) : vals := fun v =>
  (v = VNull /\ c_notnull c = false /\ c_pk c = false) \/ type_values c v.

(** ** Go, with gopkg.in/guregu/null.v4 and github.com/shopspring/decimal *)
Definition anything : vals := fun _ => True.
Definition go_string : vals := fun v => match v with VText _ | VMember _ => True | _ => False end.
Definition go_time : vals := either dates (either times stamps).
Definition any_decimal : vals := fun v => match v with VDecimal _ _ => True | _ => False end.
Definition any_bytes : vals := fun v => match v with VBytes _ => True | _ => False end.
Definition go_holds (ty : string) : vals :=
  match ty with
  | "string" => go_string | "null.String" => either null go_string
  | "bool" => bits 1 | "null.Bool" => either null (bits 1)
  | "int8" => ints 1 | "int16" => ints 2 | "int32" => ints 4 | "int64" => ints 8
  | "null.Int" => either null (ints 8)
  | "decimal.Decimal" => any_decimal | "decimal.NullDecimal" => either null any_decimal
  | "float32" => floats single | "float64" => floats double | "null.Float" => either null (floats double)
  | "time.Time" => go_time | "null.Time" => either null go_time
  | "[]byte" => either null any_bytes
  | "byte" => bits 8 | "*byte" => either null (bits 8)
  | "interface{}" => anything
  | _ => nothing
  end.

(** ** Kotlin *)
Definition kt_holds_name (ty : string) : vals :=
  match ty with
  | "String" => texts (fun _ => True)
  | "Boolean" => bits 1
  | "Int" => ints 4 | "Long" => ints 8
  | "BigDecimal" => any_decimal
  | "Float" => floats single | "Double" => floats double
  | "Timestamp" => stamps | "LocalDate" => dates | "LocalTime" => times
  | "Blob" => any_bytes
  | "Any" => not_null
  | _ => nothing
  end.
Definition kt_holds (ty : list tree) : vals :=
  match ty with
  | [Leaf (TWord k)] => kt_holds_name k
  | [Leaf (TWord k); Leaf (TMark "?")] => either null (kt_holds_name k)
  | _ => nothing
  end.

(** ** GraphQL: Int has 32 bits, Float is a double; anything else is written as text *)
(** a decimal number that is a double *)
Definition decimal_doubles : vals := fun v =>
  match v with
  | VDecimal d s => exists m e, double m e /\ (m * 2 ^ Z.max e 0 * 10 ^ Z.of_N s = d * 2 ^ Z.max (- e) 0)%Z
  | _ => False
  end.
Definition scalar_holds (b : string) : vals :=
  match b with
  | "Int" => ints 4
  | "Float" => either (floats double) decimal_doubles
  | "Boolean" => bits 1
  | "String" | "ID" => not_null
  | _ => nothing
  end.
Definition gql_holds (ty : gtype) : vals :=
  match ty with
  | GNonNull (GName b) => scalar_holds b
  | GName b => either null (scalar_holds b)
  | _ => nothing
  end.

(** ** Protocol buffers; null is the absence of the field *)
Definition proto_holds (ty : string) : vals :=
  match ty with
  | "string" => texts (fun _ => True)
  | "bool" => bits 1
  | "int32" => ints 4 | "int64" => ints 8
  | "float" => floats single | "double" => either (floats double) decimal_doubles
  | "google.protobuf.Timestamp" => stamps
  | _ => nothing
  end.

(** ** SQLAlchemy, by the SQL types it uses. [wide]: FLOAT is a double; [blob]: the capacity of BLOB *)
Section Server.
Variables (wide : bool) (blob : N).
(** the argument [x] of a call, as a number *)
Definition sa_arg (x : string) (args : list (string * pexpr)) (n : N) : Prop := In (x, EName (itoa n)) args.
Definition sa_holds (ty : pexpr) : vals := fun v =>
  match ty with
  | EName "String" => texts (fun _ => True) v
  | EName "Boolean" => bits 1 v
  | EName "Integer" => ints 4 v
  | EName "BigInteger" => ints 8 v
  | EName "DateTime" | EName "TZDateTime" => stamps v
  | EName "Date" => dates v
  | EName "Time" => times v
  | EName "LargeBinary" => bytes blob v
  | ECall "String" [("", EName n)] => texts (fun l => exists k, n = itoa k /\ longest k l) v
  | ECall "Numeric" args =>
      (exists p s, sa_arg "precision" args p /\ (sa_arg "scale" args s \/ (s = 0%N /\ forall k, ~ sa_arg "scale" args k)) /\
         decimals p s v) \/
      ((forall k, ~ sa_arg "precision" args k) /\ decimals 10 0 v)
  | ECall "Float" _ => floats (if wide then double else single) v
  | _ => False
  end.
(** a column is nullable unless it is said not to be, or is a key *)
Definition sa_column_holds (ty : pexpr) (kws : list (string * pexpr)) : vals := fun v =>
  (v = VNull /\ ~ In ("nullable", EName "False") kws /\ ~ In ("primary_key", EName "True") kws) \/ sa_holds ty v.
End Server.

(** ** MySQL *)
Definition my_holds (ft : field_type) : vals :=
  let len := Z.to_N (ft_flen ft) in
  let dec := Z.to_N (ft_dec ft) in
  let one := if Z.ltb (ft_flen ft) 0 then 1%N else len in
  let text k := if str_in (ft_info ft) ["tinytext"; "text"; "mediumtext"; "longtext"] then texts (at_most (top k)) else bytes (top k) in
  let real (P : Z -> Z -> Prop) := floats (fun m e => P m e /\ (if Z.ltb (ft_dec ft) 0 then True else below len dec m e)) in
  match ft_tp ft with
  | TpBit => bits one
  | TpTiny => ints 1 | TpShort => ints 2 | TpInt24 => ints 3 | TpLong => ints 4 | TpLonglong => ints 8
  | TpNewDecimal => decimals (if Z.ltb (ft_flen ft) 0 then 10 else len) dec
  | TpFloat => real single
  | TpDouble => real double
  | TpString => if ft_binary ft then bytes one else texts (longest one)
  | TpVarchar => if ft_binary ft then bytes len else texts (longest len)
  | TpTinyBlob => text 8%N | TpBlob => text 16%N | TpMediumBlob => text 24%N | TpLongBlob => text 32%N
  | TpDate => dates | TpDuration => times | TpDatetime => stamps | TpYear => years
  | TpEnum => members (ft_elems ft) | TpSet => subsets (ft_elems ft)
  | TpJSON => jsons
  | _ => nothing
  end.
Definition my_column_holds (q : sql_column) : vals := fun v =>
  (v = VNull /\ q_notnull q = false) \/ my_holds (q_type q) v.

(** The names in change logs that are not MySQL's: CLOB is LONGTEXT and BOOLEAN is BIT(1); what
    BLOB becomes depends on the version of Liquibase. *)
Definition lq_means (blob text : string) (ft : field_type) : Prop :=
  read_type_text (match text with "clob" => "longtext" | "boolean" => "bit(1)" | "blob" => blob | t => t end) = Some ft.

(** ** Where there is room for all values *)

(** a byte has eight bits; there is no nullable type for enumerations *)
Definition go_room (c : column) : Prop :=
  (c_type c = "bit" -> (c_size c <= 8)%N) /\
  (c_type c = "enum" -> c_notnull c = true \/ c_pk c = true).

(** decimal numbers that are doubles *)
Definition short_decimal (c : column) : Prop :=
  c_type c = "decimal" -> c_size c = 0%N \/ (c_scale c = 0%N /\ (c_size c <= 15)%N).
Definition gql_room (t : table) (c : column) : Prop :=
  sole_key t c \/ (c_type c <> "int64" /\ short_decimal c).
Definition proto_room (c : column) : Prop :=
  In (c_type c) ["char"; "varchar"; "text8"; "text16"; "text24"; "text32"; "boolean"; "int8"; "int16"; "int24"; "int32";
                 "int64"; "float"; "double"; "decimal"; "datetime"] /\ short_decimal c.
Definition blob_length (ty : string) : N :=
  match ty with "blob8" => top 8 | "blob16" => top 16 | "blob24" => top 24 | "blob32" => top 32 | _ => 0 end.
Definition sa_room (wide : bool) (blob : N) (c : column) : Prop :=
  (c_type c = "double" -> wide = true) /\ (blob_length (c_type c) <= blob)%N.
(** the size of BINARY gets lost *)
Definition my_room (c : column) : Prop := c_type c = "binary" -> (c_size c <= 1)%N.

(** BLOB has 64 KB *)
Definition lq_room (blob : string) (c : column) : Prop := blob = "blob" -> ~ In (c_type c) ["blob24"; "blob32"].
(** types that stand for several types in change logs *)
Definition merged : list string := ["text8"; "text16"; "text24"; "blob8"; "blob16"; "blob24"; "blob32"].
(** types that change logs have no name for *)
Definition lq_unnamed : list string := ["enum"; "set"; "geometry"; "point"].

(** ** Sizes where they belong *)
Definition sizes_ok (c : column) : Prop :=
  let n := c_size c in
  let s := c_scale c in
  match c_type c with
  | "char" | "binary" | "bit" | "int8" | "int16" | "int24" | "int32" | "int64" => s = 0%N
  | "varchar" | "varbinary" => s = 0%N /\ n <> 0%N
  | "decimal" => (s <= n)%N
  | "float" | "double" => n = 0%N <-> s = 0%N
  | _ => n = 0%N /\ s = 0%N
  end.
