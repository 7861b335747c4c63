(** * SpecExamples: the queries that the project shows as examples *)
From Verif Require Import PyBase.

(** each line with the new line behind it *)
Definition lines_text (ls : list pystr) : pystr := flat_map (fun l => l ++ [10%N]) ls.

Definition ex_line_1 : pystr := py "MAKE (n:NodeLabel)-[r:REL]->(n:NodeLabel);".
Definition ex_line_2 : pystr := py "FIND (p:NodeLabel)-[r2:REL]->(q:NodeLabel);".
Definition ex_line_3 : pystr := py "CRITERIA p.name = ""Bar"" or q.name = ""Bar;".
Definition ex_line_4 : pystr := py "REPORT wn(p), wn(q);".
Definition ex_line_5 : pystr := py "MAKE (n:NodeLabel)-[r:REL]->(m:NodeLabel);".
Definition ex_line_6 : pystr := py "ADJUST p.name = ""h"" and q.name = ""Wig"";".
Definition ex_line_7 : pystr := py "MAKE (:NodeLabel{int: 1, str: '2', str2:""2_4"", float: 3.14, bool: false, none: null, list: [1, '2', ""2_4"", ""3 4"", 3.14]})<-[r:REL{int: 1, str: '2', str2:""2_4"", float: 3.14, list: [1, '2', ""2_4"", ""3 4"", 3.14]}]-(foo2:NodeLabel {int: 1, str: '2', str2:""2_4"", float: 3.14, list: [1, '2', ""2_4"", ""3 4"", 3.14]} ) <-[r:REL{int: 1, str: '2', str2:""2_4"", float: 3.14, list: [1, '2', ""2_4"", ""3 4"", 3.14]}]- (foo3:NodeLabel {int: 1, str: '2', str2:""2_4"", float: 3.14, list: [1, '2', ""2_4"", ""3 4"", 3.14]} );".
Definition ex_line_8 : pystr := py "MAKE (:NodeLabel{int: 1, str: '2', str2:""2_4"", float: 3.14, list: [1, '2', ""2_4"", ""3 4"", 3.14]})<-[r:REL{int: 1, str: '2', str2:""2_4"", float: 3.14, list: [1, '2', ""2_4"", ""3 4"", 3.14]}]-(foo2:NodeLabel {int: 1, str: '2', str2:""2_4"", float: 3.14, list: [1, '2', ""2_4"", ""3 4"", 3.14]} ) <-[r:REL{int: 1, str: '2', str2:""2_4"", float: 3.14, list: [1, '2', ""2_4"", ""3 4"", 3.14]}]- (foo3:NodeLabel {int: 1, str: '2', str2:""2_4"", float: 3.14, list: [1, '2', ""2_4"", ""3 4"", 3.14]} ), (:NodeLabel{int: 1, str: '2', str2:""2_4"", float: 3.14, list: [1, '2', ""2_4"", ""3 4"", 3.14]})<-[r:REL{int: 1, str: '2', str2:""2_4"", float: 3.14, list: [1, '2', ""2_4"", ""3 4"", 3.14]}]-(foo2:NodeLabel {int: 1, str: '2', str2:""2_4"", float: 3.14, list: [1, '2', ""2_4"", ""3 4"", 3.14]} ) <-[r:REL{int: 1, str: '2', str2:""2_4"", float: 3.14, list: [1, '2', ""2_4"", ""3 4"", 3.14]}]- (foo3:NodeLabel {int: 1, str: '2', str2:""2_4"", float: 3.14, list: [1, '2', ""2_4"", ""3 4"", 3.14]} );".

(** wiggle_query_language/README.md:27-30 *)
Definition readme_query : pystr := lines_text [ex_line_1; ex_line_2; ex_line_3; ex_line_4].
(** wiggle_query_language/example_queries/all_clauses.wql *)
Definition all_clauses_wql : pystr := lines_text [ex_line_5; ex_line_2; ex_line_3; ex_line_6; ex_line_4].
(** wiggle_query_language/example_queries/find.wql *)
Definition find_wql : pystr := lines_text [ex_line_2; ex_line_4].
(** wiggle_query_language/example_queries/make.wql *)
Definition make_wql : pystr := lines_text [ex_line_5].
(** wiggle_query_language/example_queries/make_long.wql *)
Definition make_long_wql : pystr := lines_text [ex_line_7].
(** wiggle_query_language/example_queries/make_long_2_stms.wql *)
Definition make_long_2_stms_wql : pystr := lines_text [ex_line_8].

Definition documented : list pystr := [readme_query; all_clauses_wql; find_wql; make_wql; make_long_wql; make_long_2_stms_wql].
(** the lines of these, each as somebody would type it at the prompt *)
Definition documented_lines : list pystr := [ex_line_1; ex_line_2; ex_line_3; ex_line_4; ex_line_5; ex_line_6; ex_line_7; ex_line_8].
