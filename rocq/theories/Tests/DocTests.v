(** The worked examples of /repo/docs, run on the model: the commands and the texts are copied from there, the files are
    /repo/examples/user.json and user-v2.json. These are tests of the model, not proofs. Texts are compared without
    spaces, tabs and line breaks: the documentation shows Go code aligned by gofmt, Kotlin files without
    their empty lines and two spaces instead of four in GraphQL's [schema] block. *)
From Coq Require Import String Ascii List NArith ZArith Bool.
From Verif.Model Require Import GoString Util Octopus Common Strcase GoPath Cli Args.
From Verif.Proofs Require Import CliCases.
Import ListNotations.
Local Open Scope string_scope.

(** /repo/examples/user.json *)
Definition user_json : string :=
"{
  ""version"": ""1.0.0"",
  ""tables"": [
    {
      ""className"": ""UserGroup"",
      ""name"": ""group"",
      ""columns"": [
        {
          ""name"": ""id"",
          ""type"": ""long"",
          ""desc"": ""unique id"",
          ""notnull"": true,
          ""pk"": true,
          ""autoinc"": true
        },
        {
          ""name"": ""name"",
          ""type"": ""string"",
          ""desc"": ""group name"",
          ""notnull"": true,
          ""size"": 40,
          ""unique"": true
        }
      ],
      ""desc"": ""Group table""
    },
    {
      ""name"": ""user"",
      ""columns"": [
        {
          ""name"": ""id"",
          ""type"": ""long"",
          ""desc"": ""unique id"",
          ""notnull"": true,
          ""pk"": true,
          ""autoinc"": true
        },
        {
          ""name"": ""name"",
          ""type"": ""string"",
          ""desc"": ""user login name"",
          ""notnull"": true,
          ""size"": 40,
          ""unique"": true
        },
        {
          ""name"": ""group_id"",
          ""type"": ""long"",
          ""desc"": ""group ID"",
          ""ref"": {
            ""table"": ""group"",
            ""column"": ""id"",
            ""relationship"": ""n:1""
          }
        }
      ],
      ""desc"": ""User table""
    }
  ]
}".

(** /repo/examples/user-v2.json *)
Definition user_v2_json : string :=
"{
  ""version"": ""2.0.0"",
  ""tables"": [
    {
      ""className"": ""UserGroup"",
      ""name"": ""group"",
      ""columns"": [
        {
          ""name"": ""id"",
          ""type"": ""long"",
          ""desc"": ""unique id"",
          ""notnull"": true,
          ""pk"": true,
          ""autoinc"": true
        },
        {
          ""name"": ""name"",
          ""type"": ""string"",
          ""desc"": ""group name"",
          ""notnull"": true,
          ""size"": 80,
          ""unique"": true
        }
      ],
      ""desc"": ""Group table""
    },
    {
      ""name"": ""user"",
      ""columns"": [
        {
          ""name"": ""id"",
          ""type"": ""long"",
          ""desc"": ""unique id"",
          ""notnull"": true,
          ""pk"": true,
          ""autoinc"": true
        },
        {
          ""name"": ""name"",
          ""type"": ""string"",
          ""desc"": ""user login name"",
          ""notnull"": true,
          ""size"": 40,
          ""unique"": true
        },
        {
          ""name"": ""email"",
          ""type"": ""string"",
          ""desc"": ""user email"",
          ""size"": 255
        },
        {
          ""name"": ""group_id"",
          ""type"": ""long"",
          ""desc"": ""group ID"",
          ""ref"": {
            ""table"": ""group"",
            ""column"": ""id"",
            ""relationship"": ""n:1""
          }
        }
      ],
      ""desc"": ""User table""
    }
  ]
}
".

(** strcase as in Model/Strcase; every plural is formed with "s" *)
Definition doc_world : world :=
  mkWorld strcase_camel strcase_lower_camel strcase_snake (fun s => s ++ "s") path_join (w_sort sample_world)
    (w_sort_v1 sample_world) (w_sql sample_world) (w_open_xlsx sample_world) (w_save_xlsx sample_world)
    (w_sheet_ok sample_world) (w_yaml sample_world) (w_float_ok sample_world)
    (fun l => l) (fun _ l => l) (fun l => l) (fun _ l => l) (fun _ l => l).

Definition doc_files : files :=
  fun n => if String.eqb n "examples/user.json" then Some user_json
           else if String.eqb n "examples/user-v2.json" then Some user_v2_json else None.

Definition oct (c : command) (options : list (string * string)) : outcome :=
  run doc_world doc_files c (option_values options).

(** a text without white space *)
Fixpoint visible (s : string) : string :=
  match s with
  | "" => ""
  | String c s' => if str_in (String c "") [" "; String "010" ""; String "009" ""] then visible s' else String c (visible s')
  end.
Definition same_outcome (o : outcome) (expected : list (string * string)) : bool :=
  match snd o with Done => true | _ => false end &&
  Nat.eqb (length (fst o)) (length expected) &&
  forallb (fun p => String.eqb (fst (fst p)) (fst (snd p)) && String.eqb (visible (snd (fst p))) (visible (snd (snd p))))
    (combine (fst o) expected).

(** /repo/docs/quickdbd.md *)
Example quickdbd :
  same_outcome (oct ExportQuickdbd [("input", "examples/user.json"); ("output", "output/user.txt")])
    [("output/user.txt",
"group # Group table
-----
id int64 PK AUTOINCREMENT # unique id
name varchar UNIQUE # group name

user # User table
----
id int64 PK AUTOINCREMENT # unique id
name varchar UNIQUE # user login name
group_id int64 NULLABLE FK >- group.id # group ID
")] = true.
Proof. vm_compute. reflexivity. Qed.

(** /repo/docs/dbml.md *)
Example dbml :
  same_outcome (oct ExportDbml [("input", "examples/user.json"); ("output", "output/user.dbml")])
    [("output/user.dbml",
"Table group {
  id int64 [pk, not null, note: ""unique id""]
  name varchar(40) [unique, not null, note: ""group name""]
}

Table user {
  id int64 [pk, not null, note: ""unique id""]
  name varchar(40) [unique, not null, note: ""user login name""]
  group_id int64 [ref: > group.id, note: ""group ID""]
}
")] = true.
Proof. vm_compute. reflexivity. Qed.

(** /repo/docs/protobuf.md *)
Example protobuf :
  same_outcome (oct GeneratePb [("input", "examples/user.json"); ("output", "output/user.proto"); ("goPackage", "model"); ("package", "octopus")])
    [("output/user.proto",
"syntax = ""proto3"";

package octopus;

option go_package = ""model"";

message Group {
  int64 id = 1;
  string name = 2;
}

message User {
  int64 id = 1;
  string name = 2;
  int64 groupId = 3;
  Group group = 4;
}
")] = true.
Proof. vm_compute. reflexivity. Qed.

(** /repo/docs/sqlalchemy.md *)
Example sqlalchemy :
  same_outcome (oct GenerateSqlalchemy [("input", "examples/user.json"); ("output", "output/user.py")])
    [("output/user.py",
"from sqlalchemy import BigInteger, Column, String
from sqlalchemy.ext.declarative import declarative_base
from sqlalchemy_repr import RepresentableBase

Base = declarative_base(cls=RepresentableBase)


class UserGroup(Base):
    __tablename__ = 'group'

    id = Column(BigInteger, primary_key=True, autoincrement=True)
    name = Column(String(40), unique=True, nullable=False)


class User(Base):
    __tablename__ = 'user'

    id = Column(BigInteger, primary_key=True, autoincrement=True)
    name = Column(String(40), unique=True, nullable=False)
    group_id = Column(BigInteger)
")] = true.
Proof. vm_compute. reflexivity. Qed.

(** /repo/docs/graphql.md *)
Example graphql :
  same_outcome (oct GenerateGraphql [("input", "examples/user.json"); ("output", "output/graphql")])
    [("output/graphql/-1.0.0.graphqls",
"schema {
  query: Query
}

type Query {
  userGroups: [UserGroup]
  users: [User]
}

type UserGroup {
  id: ID!
  name: String!
}

type User {
  id: ID!
  name: String!
  groupId: Int
}
")] = true.
Proof. vm_compute. reflexivity. Qed.

(** /repo/docs/gorm.md *)
Example gorm :
  same_outcome (oct GenerateGorm [("input", "examples/user.json"); ("output", "output/user.go"); ("package", "model")])
    [("output/user.go",
"package model

import (
	""gopkg.in/guregu/null.v4""
)

type UserGroup struct {
	ID   int64  `gorm:""primary_key;auto_increment""`
	Name string `gorm:""type:varchar(40);unique;not null""`
}

func (c *UserGroup) TableName() string { return ""group"" }

type User struct {
	ID        int64  `gorm:""primary_key;auto_increment""`
	Name      string `gorm:""type:varchar(40);unique;not null""`
	GroupID   null.Int
	UserGroup UserGroup `gorm:""foreignKey:GroupID;references:ID""`
}

func (c *User) TableName() string { return ""user"" }
")] = true.
Proof. vm_compute. reflexivity. Qed.

(** /repo/docs/gorm.md *)
Example gorm_embed :
  same_outcome (oct GenerateGorm [("input", "examples/user.json"); ("output", "output/user.go"); ("package", "model"); ("embed", "IdName:id,name")])
    [("output/user.go",
"package model

import (
	""gopkg.in/guregu/null.v4""
)

type UserGroup struct {
	IdName
}

func (c *UserGroup) TableName() string { return ""group"" }

type User struct {
	IdName
	GroupID   null.Int
	UserGroup UserGroup `gorm:""foreignKey:GroupID;references:ID""`
}

func (c *User) TableName() string { return ""user"" }
")] = true.
Proof. vm_compute. reflexivity. Qed.

(** /repo/docs/jpa.md *)
Example jpa :
  same_outcome (oct GenerateKt [("input", "examples/user.json"); ("output", "output/"); ("package", "octopus.entity"); ("reposPackage", "octopus.repos"); ("useUTC", "true")])
    [("output/octopus/entity/UserGroup.kt",
"package octopus.entity

import javax.persistence.*

@Entity
@Table(name=""group"", uniqueConstraints = [
    UniqueConstraint(name = ""group"", columnNames = [""name""])
])
data class UserGroup(
        @Id
        @GeneratedValue(strategy = GenerationType.AUTO)
        @Column(nullable = false)
        var id: Long = 0L,

        @Column(nullable = false, length = 40)
        var name: String = """"
)
");
     ("output/octopus/entity/User.kt",
"package octopus.entity

import javax.persistence.*

@Entity
@Table(name=""user"", uniqueConstraints = [
    UniqueConstraint(name = ""user"", columnNames = [""name""])
])
data class User(
        @Id
        @GeneratedValue(strategy = GenerationType.AUTO)
        @Column(nullable = false)
        var id: Long = 0L,

        @Column(nullable = false, length = 40)
        var name: String = """",

        var groupId: Long?
)
");
     ("output/octopus/repos/UserGroupRepository.kt",
"package octopus.repos

import octopus.entity.*
import org.springframework.data.jpa.repository.JpaRepository
import org.springframework.stereotype.Repository

@Repository
interface UserGroupRepository : JpaRepository<UserGroup, Long>
");
     ("output/octopus/repos/UserRepository.kt",
"package octopus.repos

import octopus.entity.*
import org.springframework.data.jpa.repository.JpaRepository
import org.springframework.stereotype.Repository

@Repository
interface UserRepository : JpaRepository<User, Long>
")] = true.
Proof. vm_compute. reflexivity. Qed.

(** /repo/docs/mysql.md *)
Example mysql :
  same_outcome (oct ExportMysql [("input", "examples/user.json"); ("output", "output/user.sql")])
    [("output/user.sql",
"CREATE TABLE IF NOT EXISTS group (
  id bigint NOT NULL AUTO_INCREMENT COMMENT 'unique id',
  name varchar(40) NOT NULL COMMENT 'group name',
  PRIMARY KEY (`id`),
  UNIQUE KEY `group` (`name`)
);
CREATE TABLE IF NOT EXISTS user (
  id bigint NOT NULL AUTO_INCREMENT COMMENT 'unique id',
  name varchar(40) NOT NULL COMMENT 'user login name',
  group_id bigint COMMENT 'group ID',
  PRIMARY KEY (`id`),
  UNIQUE KEY `user` (`name`)
);
")] = true.
Proof. vm_compute. reflexivity. Qed.

(** The documentation shows the columns without the mark of required ones, generator.go:61-63. *)
(** /repo/docs/plantuml.md *)
Example plantuml :
  same_outcome (oct GeneratePlantuml [("input", "examples/user.json"); ("output", "output/user.puml")])
    [("output/user.puml",
"@startuml
entity group {
    * id: int64 <<PK>>
    --
    * name: varchar <<UQ>>
}
entity user {
    * id: int64 <<PK>>
    --
    * name: varchar <<UQ>>
    group_id: int64 <<FK>>
}
user }o-|| group
@enduml
")] = true.
Proof. vm_compute. reflexivity. Qed.

(** /repo/docs/liquibase.md: the change sets, as [w_yaml] shows them *)
Example liquibase :
  oct GenerateLiquibase [("input", "examples/user.json"); ("output", "output/changelogs.yml"); ("comments", "true")]
    = ([("output/changelogs.yml",
         "1-1   createTable group Group table id,bigint,t,t--,unique id,,-,,, name,varchar(40),-,-ft,group name,,-,,,; " ++
         "1-2  pre addUnique group name group; " ++
         "2-1   createTable user User table id,bigint,t,t--,unique id,,-,,, name,varchar(40),-,-ft,user login name,,-,,, group_id,bigint,-,,group ID,,-,,,; " ++
         "2-2  pre addUnique user name user")], Done).
Proof. vm_compute. reflexivity. Qed.

Example liquibase_diff :
  oct DiffLiquibase [("from", "examples/user.json"); ("to", "examples/user-v2.json"); ("output", "output/diff.yaml");
                     ("uniqueNameSuffix", "_uq"); ("author", "foo"); ("comments", "true")]
    = ([("output/diff.yaml",
         "1-1 foo  modifyDataType group name varchar(80); 2-1 foo  addColumn user email,varchar(255),-,,user email,,-,,,name")], Done).
Proof. vm_compute. reflexivity. Qed.

(** the command lines of /repo/docs, split at the spaces as a shell does *)
Definition doc_line (line : string) : outcome := run_line doc_world doc_files (fun _ => None) (split_char " " line).
Example lines :
  doc_line "export quickdbd --input examples/user.json --output output/user.txt" =
    oct ExportQuickdbd [("input", "examples/user.json"); ("output", "output/user.txt")] /\
  doc_line "generate pb --input examples/user.json --output output/user.proto --goPackage model --package octopus" =
    oct GeneratePb [("input", "examples/user.json"); ("output", "output/user.proto"); ("goPackage", "model"); ("package", "octopus")] /\
  doc_line "generate gorm --input examples/user.json --output output/user.go --package model --embed IdName:id,name" =
    oct GenerateGorm [("input", "examples/user.json"); ("output", "output/user.go"); ("package", "model"); ("embed", "IdName:id,name")] /\
  doc_line "generate kt --input examples/user.json --output output/ --package octopus.entity --reposPackage octopus.repos --useUTC" =
    oct GenerateKt [("input", "examples/user.json"); ("output", "output/"); ("package", "octopus.entity");
                    ("reposPackage", "octopus.repos"); ("useUTC", "true")] /\
  doc_line "diff liquibase --from examples/user.json --to examples/user-v2.json --output output/diff.yaml --uniqueNameSuffix _uq --author foo --comments" =
    oct DiffLiquibase [("from", "examples/user.json"); ("to", "examples/user-v2.json"); ("output", "output/diff.yaml");
                       ("uniqueNameSuffix", "_uq"); ("author", "foo"); ("comments", "true")] /\
  doc_line "init --output user.json" = oct Init [("output", "user.json")] /\
  doc_line "generate sqlalchemy --help" = ([], Done) /\
  snd (doc_line "generate kt --input examples/user.json --output output/ --useUTC") = Done.
Proof. vm_compute. repeat split. Qed.
