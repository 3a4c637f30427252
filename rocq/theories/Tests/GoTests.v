(** The tests of /repo, run on the model. They are generated from the *_test.go files: the schemas and the expected texts
    are copied from there. The SQLAlchemy test is skipped in /repo. These are tests of the model, not proofs. *)
From Coq Require Import String Ascii List NArith ZArith Bool.
From Verif.Model Require Import GoString Util Octopus Common Strcase Gorm Protobuf Jpa Mysql Xlsx.
From Verif.Spec Require Import MysqlGrammar.
Import ListNotations.
Local Open Scope string_scope.

(** /repo/format/gorm/generator_test.go:14-249 *)
Definition gorm_schema : schema :=
  mkSchema "" "" "" [
    mkTable "tbl_user1" [
      mkCol "id" "int64" "" 0 0 true true false true "" "" [] None;
      mkCol "name" "varchar" "" 100 0 true false true false "" "" [] None;
      mkCol "1_decimal" "decimal" "" 20 5 true false false false "" "" [] None;
      mkCol "2_decimal" "decimal" "" 20 5 false false false false "" "" [] None;
      mkCol "bool_1" "boolean" "" 0 0 false false false false "" "" [] None;
      mkCol "bool2" "boolean" "" 0 0 true false false false "" "" [] None;
      mkCol "int1_notnull" "int8" "" 0 0 true false false false "" "" [] None;
      mkCol "int1_null" "int8" "" 0 0 false false false false "" "" [] None;
      mkCol "int2_notnull" "int16" "" 0 0 true false false false "" "" [] None;
      mkCol "int2_null" "int16" "" 0 0 false false false false "" "" [] None;
      mkCol "int3_notnull" "int24" "" 0 0 true false false false "" "" [] None;
      mkCol "int3_null" "int24" "" 0 0 false false false false "" "" [] None;
      mkCol "int4_notnull" "int32" "" 0 0 true false false false "" "" [] None;
      mkCol "int4_null" "int32" "" 0 0 false false false false "" "" [] None;
      mkCol "int5_notnull" "int64" "" 0 0 true false false false "" "" [] None;
      mkCol "int5_null" "int64" "" 0 0 false false false false "" "" [] None;
      mkCol "float1_notnull" "float" "" 20 5 true false false false "" "" [] None;
      mkCol "float_null" "float" "" 20 10 false false false false "" "" [] None;
      mkCol "double1_notnull" "double" "" 20 5 true false false false "" "" [] None;
      mkCol "double_null" "double" "" 20 10 false false false false "" "" [] None;
      mkCol "time_null" "time" "" 0 0 false false false false "" "" [] None;
      mkCol "blob1" "blob8" "" 0 0 false false false false "" "" [] None;
      mkCol "blob2" "blob16" "" 0 0 false false false false "" "" [] None;
      mkCol "blob3" "blob24" "" 0 0 false false false false "" "" [] None;
      mkCol "blob4" "blob32" "" 0 0 false false false false "" "" [] None;
      mkCol "bit1_notnull" "bit" "" 1 0 true false false false "" "" [] None;
      mkCol "bit1_null" "bit" "" 1 0 false false false false "" "" [] None;
      mkCol "bit2" "bit" "" 2 0 false false false false "" "" [] None;
      mkCol "invalid" "invalidType" "" 0 0 false false false false "" "" [] None;
      mkCol "created_at" "datetime" "" 0 0 true false false false "" "" [] None;
      mkCol "updated_at" "datetime" "" 0 0 true false false false "" "" [] None;
      mkCol "deleted_at" "datetime" "" 0 0 false false false false "" "" [] None] "" "group1" "" [];
    mkTable "user2" [
      mkCol "id" "int64" "" 0 0 true true false true "" "" [] None;
      mkCol "user_id" "int64" "" 0 0 true false false false "" "" [] (Some (mkRef "tbl_user1" "id" "n:1"));
      mkCol "name" "varchar" "" 100 0 true false true false "" "" [] None;
      mkCol "passport_no" "varchar" "" 20 0 true false true false "" "" [] None;
      mkCol "ch" "char" "" 10 0 false false false false "" "" [] None;
      mkCol "dec" "decimal" "" 20 5 true false false false "" "" [] None;
      mkCol "time_notnull" "time" "" 0 0 true false false false "" "" [] None;
      mkCol "created_at" "datetime" "" 0 0 true false false false "" "" [] None;
      mkCol "updated_at" "datetime" "" 0 0 true false false false "" "" [] None] "" "group2" "" [mkIdx "dec_idx" ["dec"]; mkIdx "idx2" ["dec"; "name"]]].

(** generator_test.go:251-342 *)
Example gorm_1_lechuck :
  (match new_prefix_mapper "group1:G1,group2:G2" with
   | Ok pm => Some (fst (gorm_generate strcase_camel strcase_snake (fun _ l => l) (fun _ l => l) default_models
       (mkGormOpt "" (None) "lechuck" true pm ["tbl_"] "_uq") gorm_schema))
   | Panic => None
   end) = Some
"package lechuck

import (
	""github.com/jinzhu/gorm""
	""github.com/shopspring/decimal""
	""gopkg.in/guregu/null.v4""
	""time""
)

type G1User1 struct {
	gorm.Model
	Name string `gorm:""type:varchar(100);unique;not null""`
	_1Decimal decimal.Decimal `gorm:""column:1_decimal;type:decimal(20,5);not null""`
	_2Decimal decimal.NullDecimal `gorm:""column:2_decimal;type:decimal(20,5)""`
	Bool1 null.Bool
	Bool2 bool `gorm:""column:bool2;not null""`
	Int1Notnull int8 `gorm:""column:int1_notnull;not null""`
	Int1Null null.Int `gorm:""column:int1_null""`
	Int2Notnull int16 `gorm:""column:int2_notnull;not null""`
	Int2Null null.Int `gorm:""column:int2_null""`
	Int3Notnull int32 `gorm:""column:int3_notnull;not null""`
	Int3Null null.Int `gorm:""column:int3_null""`
	Int4Notnull int32 `gorm:""column:int4_notnull;not null""`
	Int4Null null.Int `gorm:""column:int4_null""`
	Int5Notnull int64 `gorm:""column:int5_notnull;not null""`
	Int5Null null.Int `gorm:""column:int5_null""`
	Float1Notnull float32 `gorm:""column:float1_notnull;type:float(20,5);not null""`
	FloatNull null.Float `gorm:""type:float(20,10)""`
	Double1Notnull float64 `gorm:""column:double1_notnull;type:double(20,5);not null""`
	DoubleNull null.Float `gorm:""type:double(20,10)""`
	TimeNull null.Time
	Blob1 []byte `gorm:""column:blob1""`
	Blob2 []byte `gorm:""column:blob2""`
	Blob3 []byte `gorm:""column:blob3""`
	Blob4 []byte `gorm:""column:blob4""`
	Bit1Notnull byte `gorm:""column:bit1_notnull;type:bit(1);not null""`
	Bit1Null *byte `gorm:""column:bit1_null;type:bit(1)""`
	Bit2 *byte `gorm:""column:bit2;type:bit(2)""`
	Invalid interface{}
}

func (c *G1User1) TableName() string { return ""tbl_user1"" }

type G2User2 struct {
	ID int64 `gorm:""primary_key;auto_increment""`
	UserID int64 `gorm:""not null""`
	Name string `gorm:""type:varchar(100);unique_index:user2_uq;index:idx2,priority:2;not null""`
	PassportNo string `gorm:""type:varchar(20);unique_index:user2_uq;not null""`
	Ch null.String `gorm:""type:char(10)""`
	Dec decimal.Decimal `gorm:""type:decimal(20,5);index:dec_idx;index:idx2,priority:1;not null""`
	TimeNotnull time.Time `gorm:""not null""`
	CreatedAt time.Time `gorm:""not null""`
	UpdatedAt time.Time `gorm:""not null""`
	G1User1 *G1User1 `gorm:""foreignKey:UserID;references:ID""`
}

func (c *G2User2) TableName() string { return ""user2"" }

".
Proof. vm_compute. reflexivity. Qed.

(** generator_test.go:251-342 *)
Example gorm_1_main :
  (match new_prefix_mapper "group1:G1,group2:G2" with
   | Ok pm => Some (fst (gorm_generate strcase_camel strcase_snake (fun _ l => l) (fun _ l => l) default_models
       (mkGormOpt "" (None) "" true pm ["tbl_"] "_uq") gorm_schema))
   | Panic => None
   end) = Some
"package main

import (
	""github.com/jinzhu/gorm""
	""github.com/shopspring/decimal""
	""gopkg.in/guregu/null.v4""
	""time""
)

type G1User1 struct {
	gorm.Model
	Name string `gorm:""type:varchar(100);unique;not null""`
	_1Decimal decimal.Decimal `gorm:""column:1_decimal;type:decimal(20,5);not null""`
	_2Decimal decimal.NullDecimal `gorm:""column:2_decimal;type:decimal(20,5)""`
	Bool1 null.Bool
	Bool2 bool `gorm:""column:bool2;not null""`
	Int1Notnull int8 `gorm:""column:int1_notnull;not null""`
	Int1Null null.Int `gorm:""column:int1_null""`
	Int2Notnull int16 `gorm:""column:int2_notnull;not null""`
	Int2Null null.Int `gorm:""column:int2_null""`
	Int3Notnull int32 `gorm:""column:int3_notnull;not null""`
	Int3Null null.Int `gorm:""column:int3_null""`
	Int4Notnull int32 `gorm:""column:int4_notnull;not null""`
	Int4Null null.Int `gorm:""column:int4_null""`
	Int5Notnull int64 `gorm:""column:int5_notnull;not null""`
	Int5Null null.Int `gorm:""column:int5_null""`
	Float1Notnull float32 `gorm:""column:float1_notnull;type:float(20,5);not null""`
	FloatNull null.Float `gorm:""type:float(20,10)""`
	Double1Notnull float64 `gorm:""column:double1_notnull;type:double(20,5);not null""`
	DoubleNull null.Float `gorm:""type:double(20,10)""`
	TimeNull null.Time
	Blob1 []byte `gorm:""column:blob1""`
	Blob2 []byte `gorm:""column:blob2""`
	Blob3 []byte `gorm:""column:blob3""`
	Blob4 []byte `gorm:""column:blob4""`
	Bit1Notnull byte `gorm:""column:bit1_notnull;type:bit(1);not null""`
	Bit1Null *byte `gorm:""column:bit1_null;type:bit(1)""`
	Bit2 *byte `gorm:""column:bit2;type:bit(2)""`
	Invalid interface{}
}

func (c *G1User1) TableName() string { return ""tbl_user1"" }

type G2User2 struct {
	ID int64 `gorm:""primary_key;auto_increment""`
	UserID int64 `gorm:""not null""`
	Name string `gorm:""type:varchar(100);unique_index:user2_uq;index:idx2,priority:2;not null""`
	PassportNo string `gorm:""type:varchar(20);unique_index:user2_uq;not null""`
	Ch null.String `gorm:""type:char(10)""`
	Dec decimal.Decimal `gorm:""type:decimal(20,5);index:dec_idx;index:idx2,priority:1;not null""`
	TimeNotnull time.Time `gorm:""not null""`
	CreatedAt time.Time `gorm:""not null""`
	UpdatedAt time.Time `gorm:""not null""`
	G1User1 *G1User1 `gorm:""foreignKey:UserID;references:ID""`
}

func (c *G2User2) TableName() string { return ""user2"" }

".
Proof. vm_compute. reflexivity. Qed.

(** generator_test.go:344-411 *)
Example gorm_2_lechuck :
  (match new_prefix_mapper "" with
   | Ok pm => Some (fst (gorm_generate strcase_camel strcase_snake (fun _ l => l) (fun _ l => l) default_models
       (mkGormOpt "IdName:id,name" (Some (fun t => String.eqb (t_group t) "group2")) "lechuck" true pm ["tbl_"] "_uq") gorm_schema))
   | Panic => None
   end) = Some
"package lechuck

import (
	""github.com/shopspring/decimal""
	""gopkg.in/guregu/null.v4""
	""time""
)

type User2 struct {
	IdName
	UserID int64 `gorm:""not null""`
	PassportNo string `gorm:""type:varchar(20);unique_index:user2_uq;not null""`
	Ch null.String `gorm:""type:char(10)""`
	Dec decimal.Decimal `gorm:""type:decimal(20,5);index:dec_idx;index:idx2,priority:1;not null""`
	TimeNotnull time.Time `gorm:""not null""`
	CreatedAt time.Time `gorm:""not null""`
	UpdatedAt time.Time `gorm:""not null""`
	User1 *User1 `gorm:""foreignKey:UserID;references:ID""`
}

func (c *User2) TableName() string { return ""user2"" }

".
Proof. vm_compute. reflexivity. Qed.

(** generator_test.go:344-411 *)
Example gorm_2_main :
  (match new_prefix_mapper "" with
   | Ok pm => Some (fst (gorm_generate strcase_camel strcase_snake (fun _ l => l) (fun _ l => l) default_models
       (mkGormOpt "IdName:id,name" (Some (fun t => String.eqb (t_group t) "group2")) "" true pm ["tbl_"] "_uq") gorm_schema))
   | Panic => None
   end) = Some
"package main

import (
	""github.com/shopspring/decimal""
	""gopkg.in/guregu/null.v4""
	""time""
)

type User2 struct {
	IdName
	UserID int64 `gorm:""not null""`
	PassportNo string `gorm:""type:varchar(20);unique_index:user2_uq;not null""`
	Ch null.String `gorm:""type:char(10)""`
	Dec decimal.Decimal `gorm:""type:decimal(20,5);index:dec_idx;index:idx2,priority:1;not null""`
	TimeNotnull time.Time `gorm:""not null""`
	CreatedAt time.Time `gorm:""not null""`
	UpdatedAt time.Time `gorm:""not null""`
	User1 *User1 `gorm:""foreignKey:UserID;references:ID""`
}

func (c *User2) TableName() string { return ""user2"" }

".
Proof. vm_compute. reflexivity. Qed.

(** /repo/format/protobuf/generator_test.go:13-169 *)
Definition pb_schema : schema :=
  mkSchema "" "" "" [
    mkTable "user" [
      mkCol "id" "int64" "" 0 0 false true false true "" "" [] None;
      mkCol "name" "varchar" "" 100 0 false false true false "" "" [] None;
      mkCol "group_id" "int64" "" 0 0 true false false false "" "" [] (Some (mkRef "group" "id" "n:1"));
      mkCol "1_decimal" "decimal" "" 20 5 true false false false "" "" [] None;
      mkCol "2_decimal" "decimal" "" 20 5 false false false false "" "" [] None;
      mkCol "bool_1" "boolean" "" 0 0 false false false false "" "" [] None;
      mkCol "bool2" "boolean" "" 0 0 true false false false "" "" [] None;
      mkCol "int1_notnull" "int8" "" 0 0 true false false false "" "" [] None;
      mkCol "int1_null" "int8" "" 0 0 false false false false "" "" [] None;
      mkCol "int2_notnull" "int16" "" 0 0 true false false false "" "" [] None;
      mkCol "int2_null" "int16" "" 0 0 false false false false "" "" [] None;
      mkCol "int3_notnull" "int24" "" 0 0 true false false false "" "" [] None;
      mkCol "int3_null" "int24" "" 0 0 false false false false "" "" [] None;
      mkCol "int4_notnull" "int32" "" 0 0 true false false false "" "" [] None;
      mkCol "int4_null" "int32" "" 0 0 false false false false "" "" [] None;
      mkCol "int5_notnull" "int64" "" 0 0 true false false false "" "" [] None;
      mkCol "int5_null" "int64" "" 0 0 false false false false "" "" [] None;
      mkCol "float_notnull" "float" "" 20 5 true false false false "" "" [] None;
      mkCol "float_null" "float" "" 20 10 false false false false "" "" [] None;
      mkCol "double_notnull" "double" "" 20 5 true false false false "" "" [] None;
      mkCol "double_null" "double" "" 20 10 false false false false "" "" [] None;
      mkCol "created_at" "datetime" "" 0 0 false false false false "" "" [] None;
      mkCol "updated_at" "datetime" "" 0 0 false false false false "" "" [] None] "" "common" "" [];
    mkTable "group" [
      mkCol "id" "int64" "" 0 0 false true false true "" "" [] None;
      mkCol "name" "varchar" "" 100 0 false false true false "" "" [] None;
      mkCol "created_at" "datetime" "" 0 0 false false false false "" "" [] None;
      mkCol "updated_at" "datetime" "" 0 0 false false false false "" "" [] None] "" "group" "" []].

(** generator_test.go:172-237 *)
Example pb_1 :
  (match new_prefix_mapper "common:C" with
   | Ok pm => pb_generate strcase_camel strcase_lower_camel (mkPbOpt pm (None) [] "com.lechuck.foo" "lechuck/foo" 100 false) pb_schema
   | Panic => Panic
   end) = Ok
"syntax = ""proto3"";

package com.lechuck.foo;

option go_package = ""lechuck/foo"";

import ""google/protobuf/timestamp.proto"";

message CUser {
  int64 id = 1;
  string name = 2;
  int64 groupId = 3;
  double 1Decimal = 4;
  double 2Decimal = 5;
  bool bool1 = 6;
  bool bool2 = 7;
  int32 int1Notnull = 8;
  int32 int1Null = 9;
  int32 int2Notnull = 10;
  int32 int2Null = 11;
  int32 int3Notnull = 12;
  int32 int3Null = 13;
  int32 int4Notnull = 14;
  int32 int4Null = 15;
  int64 int5Notnull = 16;
  int64 int5Null = 17;
  float floatNotnull = 18;
  float floatNull = 19;
  double doubleNotnull = 20;
  double doubleNull = 21;
  google.protobuf.Timestamp createdAt = 22;
  google.protobuf.Timestamp updatedAt = 23;
  Group group = 100;
}

message Group {
  int64 id = 1;
  string name = 2;
  google.protobuf.Timestamp createdAt = 3;
  google.protobuf.Timestamp updatedAt = 4;
}
".
Proof. vm_compute. reflexivity. Qed.

(** generator_test.go:239-274 *)
Example pb_2 :
  (match new_prefix_mapper "" with
   | Ok pm => pb_generate strcase_camel strcase_lower_camel (mkPbOpt pm (Some (fun t => String.eqb (t_group t) "group")) [] "" "" 100 false) pb_schema
   | Panic => Panic
   end) = Ok
"syntax = ""proto3"";



import ""google/protobuf/timestamp.proto"";

message Group {
  int64 id = 1;
  string name = 2;
  google.protobuf.Timestamp createdAt = 3;
  google.protobuf.Timestamp updatedAt = 4;
}
".
Proof. vm_compute. reflexivity. Qed.

(** /repo/format/jpa/kotlin-gen_test.go:11-52 *)
Definition kt_schema : schema :=
  mkSchema "" "" "" [
    mkTable "user" [
      mkCol "id" "int64" "" 0 0 true true false true "" "" [] None;
      mkCol "name" "varchar" "" 100 0 true false true false "" "" [] None;
      mkCol "dec" "decimal" "" 20 5 true false false false "" "" [] None;
      mkCol "created_at" "datetime" "" 0 0 true false false false "" "" [] None;
      mkCol "updated_at" "datetime" "" 0 0 false false false false "" "" [] None] "" "common" "" []].

(** kotlin-gen_test.go:54-113 *)
Example kt_1 :
  (match new_prefix_mapper "common:C", new_anno_mapper "common:@Common,admin:@Admin" with
   | Ok pm, Ok am =>
       let o := mkKtOpt am pm None "IdEntity" "com.lechuck" "" [] "" "_uq" in
       let ks := kt_classes strcase_camel strcase_lower_camel strcase_snake o kt_schema in
       map (entity_text strcase_lower_camel o ks) ks
   | _, _ => []
   end) = [Some
"package com.lechuck

import org.hibernate.annotations.CreationTimestamp
import org.hibernate.annotations.UpdateTimestamp

import java.math.BigDecimal
import java.sql.Timestamp
import javax.persistence.*

@Common
@Entity
@Table(name=""user"", uniqueConstraints = [
    UniqueConstraint(name = ""user_uq"", columnNames = [""name""])
])
data class CUser(
        @Id
        @GeneratedValue(strategy = GenerationType.AUTO)
        @Column(nullable = false)
        override var id: Long = 0L,

        @Column(nullable = false, length = 100)
        var name: String = """",

        @Column(nullable = false, precision = 20, scale = 5)
        var dec: BigDecimal = BigDecimal.ZERO,

        @CreationTimestamp
        @Column(nullable = false, updatable = false)
        var createdAt: Timestamp = Timestamp(System.currentTimeMillis()),

        @UpdateTimestamp
        var updatedAt: Timestamp?

): IdEntity<Long>
"].
Proof. vm_compute. reflexivity. Qed.

(** /repo/format/mysql/exporter_test.go:14-233 *)
Definition mysql_schema : schema :=
  mkSchema "" "" "" [
    mkTable "Table" [
      mkCol "id" "int64" "" 0 0 true true false true "" "" [] None;
      mkCol "name" "varchar" "group name" 20 0 true false true false "noname" "" [] None;
      mkCol "company_id" "int64" "" 0 0 true false false false "" "" [] (Some (mkRef "company" "id" "n:1"));
      mkCol "postal_code" "char" "" 6 0 false false true false "" "" [] None;
      mkCol "age" "int8" "" 0 0 true false false false "0" "" [] None;
      mkCol "int2" "int16" "" 0 0 false false false false "" "" [] None;
      mkCol "int3" "int24" "" 0 0 false false false false "" "" [] None;
      mkCol "int4" "int64" "" 0 0 false false false false "" "" [] None;
      mkCol "decimal1" "decimal" "" 10 3 false false false false "" "" [] None;
      mkCol "float32" "float" "" 10 3 true false false false "0" "" [] None;
      mkCol "float64" "double" "" 20 5 true false false false "0" "" [] None;
      mkCol "int_value" "int32" "int value" 0 0 false false false false "" "" [] None;
      mkCol "bool1" "boolean" "" 0 0 true false false false "1" "" [] None;
      mkCol "bool2" "boolean" "" 0 0 true false false false "1" "" [] None;
      mkCol "bit1" "bit" "" 3 0 false false false false "" "" [] None;
      mkCol "bin1" "binary" "" 0 0 false false false false "" "" [] None;
      mkCol "bin2" "varbinary" "" 0 0 false false false false "" "" [] None;
      mkCol "text1" "text8" "" 0 0 false false false false "" "" [] None;
      mkCol "text2" "text16" "" 0 0 false false false false "" "" [] None;
      mkCol "text3" "text24" "" 0 0 false false false false "" "" [] None;
      mkCol "text4" "text32" "" 0 0 false false false false "" "" [] None;
      mkCol "blob1" "blob8" "" 0 0 false false false false "" "" [] None;
      mkCol "blob2" "blob16" "" 0 0 false false false false "" "" [] None;
      mkCol "blob3" "blob24" "" 0 0 false false false false "" "" [] None;
      mkCol "blob4" "blob32" "" 0 0 false false false false "" "" [] None;
      mkCol "geo" "geometry" "" 0 0 false false false false "" "" [] None;
      mkCol "enum1" "enum" "" 0 0 false false false false "" "" ["1"; "2"; "3"] None;
      mkCol "point1" "point" "" 0 0 false false false false "" "" [] None;
      mkCol "set1" "set" "" 0 0 false false false false "" "" ["1"; "2"; "3"] None;
      mkCol "json1" "json" "" 0 0 false false false false "" "" [] None;
      mkCol "date1" "date" "" 0 0 false false false false "" "" [] None;
      mkCol "datetime1" "datetime" "" 0 0 false false false false "" "" [] None;
      mkCol "time1" "time" "" 0 0 false false false false "" "" [] None;
      mkCol "year1" "year" "" 0 0 false false false false "" "" [] None;
      mkCol "on_update_text" "varchar" "" 30 0 false false false false "" "updated" [] None;
      mkCol "on_update_int" "int16" "" 0 0 false false false false "" "1" [] None;
      mkCol "created_at" "datetime" "" 0 0 true false false false "fn::CURRENT_TIMESTAMP" "" [] None;
      mkCol "updated_at" "datetime" "" 0 0 true false false false "fn::CURRENT_TIMESTAMP" "fn::CURRENT_TIMESTAMP" [] None;
      mkCol "unknown" "invalidtype" "" 0 0 false false false false "" "" [] None] "" "group1" "" [mkIdx "idx_name" ["name"]; mkIdx "idx_ints" ["age"; "int2"; "int3"]];
    mkTable "Table2" [
      mkCol "id" "int64" "" 0 0 true true false true "" "" [] None] "" "group2" "" []].

(** exporter_test.go:235-312 *)
Example mysql_export : my_export (get_table_filter "group1") "_uq" mysql_schema =
"CREATE TABLE IF NOT EXISTS Table (
  id bigint NOT NULL AUTO_INCREMENT,
  name varchar(20) NOT NULL DEFAULT 'noname' COMMENT 'group name',
  company_id bigint NOT NULL,
  postal_code char(6),
  age tinyint NOT NULL DEFAULT 0,
  int2 smallint,
  int3 mediumint,
  int4 bigint,
  decimal1 decimal(10,3),
  float32 float(10,3) NOT NULL DEFAULT 0,
  float64 double(20,5) NOT NULL DEFAULT 0,
  int_value int COMMENT 'int value',
  bool1 bit(1) NOT NULL DEFAULT 1,
  bool2 bit(1) NOT NULL DEFAULT 1,
  bit1 bit(3),
  bin1 binary,
  bin2 varbinary,
  text1 tinytext,
  text2 text,
  text3 mediumtext,
  text4 longtext,
  blob1 tinyblob,
  blob2 blob,
  blob3 mediumblob,
  blob4 longblob,
  geo geometry,
  enum1 enum('1', '2', '3'),
  point1 point,
  set1 set('1', '2', '3'),
  json1 json,
  date1 date,
  datetime1 datetime,
  time1 time,
  year1 year,
  on_update_text varchar(30) ON UPDATE 'updated',
  on_update_int smallint ON UPDATE 1,
  created_at datetime NOT NULL DEFAULT CURRENT_TIMESTAMP(),
  updated_at datetime NOT NULL DEFAULT CURRENT_TIMESTAMP() ON UPDATE CURRENT_TIMESTAMP(),
  unknown invalidtype,
  PRIMARY KEY (`id`),
  UNIQUE KEY `Table_uq` (`name`, `postal_code`),
  INDEX `idx_name` (`name`),
  INDEX `idx_ints` (`age`, `int2`, `int3`)
);
".
Proof. vm_compute. reflexivity. Qed.

(** /repo/format/xlsx/importer_test.go:13-183 *)
Definition xlsx_schema : schema :=
  mkSchema "" "" "" [
    mkTable "user" [
      mkCol "id" "int64" "" 0 0 false true false true "" "" [] None;
      mkCol "name" "varchar" "user table" 100 0 false false true false "" "" [] None;
      mkCol "group_id" "int64" "" 0 0 true false false false "" "" [] (Some (mkRef "group" "id" "n:1"));
      mkCol "1_decimal" "decimal" "" 20 5 true false false false "" "" [] None;
      mkCol "2_decimal" "decimal" "" 20 5 false false false false "" "" [] None;
      mkCol "bool_1" "boolean" "" 0 0 false false false false "" "" [] None;
      mkCol "bool2" "boolean" "" 0 0 true false false false "" "" [] None;
      mkCol "int1_notnull" "int8" "" 0 0 true false false false "" "" [] None;
      mkCol "int1_null" "int8" "" 0 0 false false false false "" "" [] None;
      mkCol "int2_notnull" "int16" "" 0 0 true false false false "" "" [] None;
      mkCol "int2_null" "int16" "" 0 0 false false false false "" "" [] None;
      mkCol "int3_notnull" "int24" "" 0 0 true false false false "" "" [] None;
      mkCol "int3_null" "int24" "" 0 0 false false false false "" "" [] None;
      mkCol "int4_notnull" "int32" "" 0 0 true false false false "" "" [] None;
      mkCol "int4_null" "int32" "" 0 0 false false false false "" "" [] None;
      mkCol "int5_notnull" "int64" "" 0 0 true false false false "" "" [] None;
      mkCol "int5_null" "int64" "" 0 0 false false false false "" "" [] None;
      mkCol "float_notnull" "float" "" 20 5 true false false false "" "" [] None;
      mkCol "float_null" "float" "" 20 10 false false false false "" "" [] None;
      mkCol "double_notnull" "double" "" 20 5 true false false false "" "" [] None;
      mkCol "double_null" "double" "" 20 10 false false false false "" "" [] None;
      mkCol "created_at" "datetime" "" 0 0 false false false false "fn::CURRENT_TIMESTAMP" "" [] None;
      mkCol "updated_at" "datetime" "" 0 0 false false false false "fn::CURRENT_TIMESTAMP" "fn::CURRENT_TIMESTAMP" [] None] "" "common" "" [];
    mkTable "group" [
      mkCol "id" "int64" "" 0 0 false true false true "" "" [] None;
      mkCol "name" "varchar" "" 100 0 false false true false "" "" [] None;
      mkCol "created_at" "datetime" "" 0 0 false false false false "fn::CURRENT_TIMESTAMP" "" [] None;
      mkCol "updated_at" "datetime" "" 0 0 false false false false "fn::CURRENT_TIMESTAMP" "fn::CURRENT_TIMESTAMP" [] None] "" "common" "" [mkIdx "name_idx" ["name"]]].

(** importer_test.go:185-217 *)
Example xlsx_export_import :
  match export_xlsx (fun _ => true) false xlsx_schema with
  | Some wb => import_xlsx (fun l => l) wb = inl xlsx_schema
  | None => False
  end.
Proof. vm_compute. reflexivity. Qed.

(** /repo/format/mysql/importer_test.go:72-249 *)
Definition imported_schema : schema :=
  mkSchema "" "" "" [
    mkTable "Table" [
      mkCol "id" "int64" "" 0 0 true true false true "" "" [] None;
      mkCol "name" "varchar" "" 20 0 true false true false "noname" "" [] None;
      mkCol "postal_code" "char" "" 6 0 false false true false "" "" [] None;
      mkCol "age" "int8" "" 0 0 true false false false "0" "" [] None;
      mkCol "int2" "int16" "" 0 0 false false false false "" "" [] None;
      mkCol "int3" "int24" "" 0 0 false false false false "" "" [] None;
      mkCol "int4" "int64" "" 0 0 false false false false "" "" [] None;
      mkCol "decimal1" "decimal" "" 10 3 false false false false "" "" [] None;
      mkCol "float32" "float" "" 10 3 true false false false "0" "" [] None;
      mkCol "float64" "double" "" 20 5 true false false false "0" "" [] None;
      mkCol "int_value" "int32" "int value" 0 0 false false false false "" "" [] None;
      mkCol "bool1" "boolean" "" 0 0 true false false false "1" "" [] None;
      mkCol "bool2" "boolean" "" 0 0 true false false false "1" "" [] None;
      mkCol "bit1" "bit" "" 3 0 false false false false "" "" [] None;
      mkCol "bin1" "binary" "" 10 0 false false false false "" "" [] None;
      mkCol "text1" "text8" "" 0 0 false false false false "" "" [] None;
      mkCol "text2" "text16" "" 0 0 false false false false "" "" [] None;
      mkCol "text3" "text24" "" 0 0 false false false false "" "" [] None;
      mkCol "text4" "text32" "" 0 0 false false false false "" "" [] None;
      mkCol "blob1" "blob8" "" 0 0 false false false false "" "" [] None;
      mkCol "blob2" "blob16" "" 0 0 false false false false "" "" [] None;
      mkCol "blob3" "blob24" "" 0 0 false false false false "" "" [] None;
      mkCol "blob4" "blob32" "" 0 0 false false false false "" "" [] None;
      mkCol "enum1" "enum" "" 0 0 false false false false "" "" ["1"; "2"; "3"] None;
      mkCol "set1" "set" "" 0 0 false false false false "" "" ["1"; "2"; "3"] None;
      mkCol "json1" "json" "" 0 0 false false false false "" "" [] None;
      mkCol "date1" "date" "" 0 0 false false false false "" "" [] None;
      mkCol "datetime1" "datetime" "" 0 0 false false false false "" "" [] None;
      mkCol "time1" "time" "" 0 0 false false false false "" "" [] None;
      mkCol "year1" "year" "" 0 0 false false false false "" "" [] None;
      mkCol "created_at" "datetime" "" 0 0 true false false false "fn::CURRENT_TIMESTAMP" "" [] None;
      mkCol "updated_at" "datetime" "" 0 0 true false false false "fn::CURRENT_TIMESTAMP" "fn::CURRENT_TIMESTAMP" [] None] "" "" "" [mkIdx "idx_name" ["name"]; mkIdx "idx_age" ["name"; "age"]]].

(** /repo/format/mysql/importer_test.go: the statement is read by Spec/MysqlGrammar, which does not
    know [CHARACTER SET utf8] and the table options after the last parenthesis; both are left out *)
Definition import_text : string :=
  "CREATE TABLE IF NOT EXISTS `Table` (
id bigint AUTO_INCREMENT,
`name` varchar(20) NOT NULL DEFAULT 'noname',
postal_code char(6),
age tinyint NOT NULL DEFAULT 0,
`int2` smallint,
`int3` mediumint,
`int4` bigint,
decimal1 decimal(10,3),
float32 float(10,3) NOT NULL DEFAULT 0,
float64 double(20,5) NOT NULL DEFAULT 0,
int_value int comment 'int value',
bool1 bit(1) NOT NULL DEFAULT 1,
bool2 tinyint(1) NOT NULL DEFAULT 1,
bit1 bit(3),
bin1 binary(10),
text1 tinytext default null,
text2 text DEFAULT NULL,
text3 mediumtext,
text4 longtext,
blob1 tinyblob,
blob2 blob,
blob3 mediumblob,
blob4 longblob,
enum1 enum('1', '2', '3'),
set1 set('1', '2', '3'),
json1 json,
date1 date,
datetime1 datetime,
time1 time,
year1 year,
created_at datetime not null default current_timestamp(),
updated_at datetime not null default current_timestamp() on update current_timestamp(),
PRIMARY KEY (`id`),
UNIQUE KEY `Table_UNIQUE` (`name`, `postal_code`),
INDEX `idx_name` (`name`),
INDEX `idx_age` (`name`, `age`)
);".

Example mysql_import :
  option_map (import_sql [] "" "") (read_sql (fun _ => false) import_text) = Some (Ok imported_schema).
Proof. vm_compute. reflexivity. Qed.

(** /repo/format/gorm/gorm_model_test.go *)
Example embed_definitions :
  parse_embed "gorm.Model:id,created_at,updated_at,deleted_at"
    = Some ("gorm.Model", ["id"; "created_at"; "updated_at"; "deleted_at"]) /\
  parse_embed "MyName0_1:" = Some ("MyName0_1", []) /\
  parse_embed "MyName0_1=1234" = None.
Proof. vm_compute. repeat split. Qed.

(** /repo/util/util_test.go TestStringSet_Equals *)
Example string_set :
  let s1 := ss_add_all (ss_new []) ["foo"; "bar"] in
  let s2 := ss_add_all (ss_new []) ["bar"; "foo"] in
  ss_equals s1 s2 = true /\ ss_equals s1 (ss_add s2 "foobar") = false.
Proof. vm_compute. repeat split. Qed.

(** /repo/util/util_test.go TestToLowerCamel and TestToLowerSnake: tests of Model/Strcase *)
Example lower_camel_symmetric :
  map (fun s => String.eqb s (strcase_snake (strcase_lower_camel s))) ["id"; "user_name"; "a1_code"; "a1"]
    = [true; true; false; false] /\
  map (fun s => String.eqb s (strcase_snake (to_lower s))) ["id"; "user_name"; "a1_code"; "value_level1"]
    = [true; true; false; false].
Proof. vm_compute. repeat split. Qed.
