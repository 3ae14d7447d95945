(* Generated by tools/shape_table.py: what the functions of the parser are called with and
   return, and what nodes look like. Nothing here is trusted: ShapeCheck.v checks it. *)
From Verif Require Import Chars Token Cst MiniRust Program Shape.
Local Open Scope string_scope.
Local Open Scope list_scope.

Definition w0 : list string := ["BETWEEN"].
Definition w1 : list string := ["["].
Definition k2 : list string := ["left"; "right"; "rparen"].
Definition m3 : N := 8211431900497976322058011479618511077377%N.
Definition m4 : N := 1180591620717411303424%N.
Definition w5 : list string := ["AS"].
Definition m6 : N := 2658455991569831745807614120560689152%N.
Definition w7 : list string := [","].
Definition m8 : N := 144115188075855872%N.
Definition w9 : list string := ["FOR"].
Definition m10 : N := 8211431900537590403315143648415283052545%N.
Definition m11 : N := 2475880078570760549798248448%N.
Definition w12 : list string := ["MATCH_RECOGNIZE"].
Definition w13 : list string := ["ASC"; "DESC"].
Definition m14 : N := 162259276829213363391578010288128%N.
Definition w15 : list string := ["PIVOT"].
Definition m16 : N := 5316911983139663491615228241121378304%N.
Definition w17 : list string := ["TABLESAMPLE"].
Definition m18 : N := 43556142965880123323311949751266331066368%N.
Definition w19 : list string := ["UNPIVOT"].
Definition m20 : N := 89202980794122492566142873090593446023921664%N.
Definition w21 : list string := ["WITH"].
Definition c22 : list (string * cdesc) := [("alias", (CD true false m3 None)); ("as", (CD true false m4 (Some w5))); ("comma", (CD true false m6 (Some w7))); ("for_system_time_as_of", (CD true false m8 (Some w9))); ("left", (CD true false m10 None)); ("match_recognize", (CD true false m11 (Some w12))); ("null_order", (CD false true m4 None)); ("order", (CD true false m4 (Some w13))); ("pivot", (CD true false m14 (Some w15))); ("right", (CD true false m3 None)); ("row_value_alias", (CD true false m3 None)); ("rparen", (CD true false m6 None)); ("tablesample", (CD true false m16 (Some w17))); ("unpivot", (CD true false m18 (Some w19))); ("with_offset", (CD true false m20 (Some w21)))].
Definition e23 : entry := En N_AccessOperator (Some true) (Some w1) k2 c22.
Definition k24 : list string := ["exprs"; "rparen"].
Definition m25 : N := 680564733841876926926749214863536422912%N.
Definition w26 : list string := ["ARRAY"].
Definition c27 : list (string * cdesc) := [("alias", (CD true false m3 None)); ("as", (CD true false m4 (Some w5))); ("comma", (CD true false m6 (Some w7))); ("exprs", (CD false true m3 None)); ("null_order", (CD false true m4 None)); ("order", (CD true false m4 (Some w13))); ("row_value_alias", (CD true false m3 None)); ("rparen", (CD true false m6 None)); ("type", (CD true false m25 (Some w26)))].
Definition e28 : entry := En N_ArrayLiteral (Some true) None k24 c27.
Definition k29 : list string := [].
Definition m30 : N := 37778931862957161709568%N.
Definition w31 : list string := ["EXCEPT"].
Definition w32 : list string := ["REPLACE"].
Definition c33 : list (string * cdesc) := [("alias", (CD true false m3 None)); ("as", (CD true false m4 (Some w5))); ("comma", (CD true false m6 (Some w7))); ("except", (CD true false m30 (Some w31))); ("null_order", (CD false true m4 None)); ("order", (CD true false m4 (Some w13))); ("replace", (CD true false m30 (Some w32))); ("row_value_alias", (CD true false m3 None))].
Definition e34 : entry := En N_Asterisk (Some true) None k29 c33.
Definition k35 : list string := ["and"; "left"; "right_max"; "right_min"].
Definition w36 : list string := ["NOT"].
Definition c37 : list (string * cdesc) := [("alias", (CD true false m3 None)); ("and", (CD true false m4 None)); ("as", (CD true false m4 (Some w5))); ("comma", (CD true false m6 (Some w7))); ("for_system_time_as_of", (CD true false m8 (Some w9))); ("left", (CD true false m10 None)); ("match_recognize", (CD true false m11 (Some w12))); ("not", (CD true false m4 (Some w36))); ("null_order", (CD false true m4 None)); ("order", (CD true false m4 (Some w13))); ("pivot", (CD true false m14 (Some w15))); ("right_max", (CD true false m3 None)); ("right_min", (CD true false m3 None)); ("row_value_alias", (CD true false m3 None)); ("tablesample", (CD true false m16 (Some w17))); ("unpivot", (CD true false m18 (Some w19))); ("with_offset", (CD true false m20 (Some w21)))].
Definition e38 : entry := En N_BetweenOperator (Some true) (Some w0) k35 c37.
Definition w39 : list string := ["!="; "&"; "*"; "+"; "-"; "/"; "<"; "<<"; "<="; "<>"; "="; "=>"; ">"; ">="; ">>"; "AND"; "IS"; "LIKE"; "OR"; "^"; "|"; "||"].
Definition k40 : list string := ["left"; "right"].
Definition w41 : list string := ["ALL"; "ANY"; "SOME"].
Definition c42 : list (string * cdesc) := [("alias", (CD true false m3 None)); ("as", (CD true false m4 (Some w5))); ("comma", (CD true false m6 (Some w7))); ("for_system_time_as_of", (CD true false m8 (Some w9))); ("left", (CD true false m10 None)); ("match_recognize", (CD true false m11 (Some w12))); ("not", (CD true false m4 (Some w36))); ("null_order", (CD false true m4 None)); ("order", (CD true false m4 (Some w13))); ("pivot", (CD true false m14 (Some w15))); ("quantifier", (CD true false m4 (Some w41))); ("right", (CD true false m3 None)); ("row_value_alias", (CD true false m3 None)); ("tablesample", (CD true false m16 (Some w17))); ("unpivot", (CD true false m18 (Some w19))); ("with_offset", (CD true false m20 (Some w21)))].
Definition e43 : entry := En N_BinaryOperator (Some true) (Some w39) k40 c42.
Definition c44 : list (string * cdesc) := [("alias", (CD true false m3 None)); ("as", (CD true false m4 (Some w5))); ("comma", (CD true false m6 (Some w7))); ("null_order", (CD false true m4 None)); ("order", (CD true false m4 (Some w13))); ("row_value_alias", (CD true false m3 None))].
Definition e45 : entry := En N_BooleanLiteral (Some true) None k29 c44.
Definition w46 : list string := ["("].
Definition k47 : list string := ["func"; "rparen"].
Definition m48 : N := 8211431900497976322058083537221138939905%N.
Definition w49 : list string := ["DISTINCT"].
Definition m50 : N := 2361183241434822606848%N.
Definition w51 : list string := ["HAVING"].
Definition m52 : N := 4722366482869645213696%N.
Definition w53 : list string := ["LIMIT"].
Definition m54 : N := 1427247692705959881058285969449495136382746624%N.
Definition w55 : list string := ["ORDER"].
Definition m56 : N := 633825300114114700748351602688%N.
Definition w57 : list string := ["OVER"].
Definition c58 : list (string * cdesc) := [("alias", (CD true false m3 None)); ("args", (CD false true m48 None)); ("as", (CD true false m4 (Some w5))); ("comma", (CD true false m6 (Some w7))); ("distinct", (CD true false m4 (Some w49))); ("func", (CD true false m10 None)); ("having", (CD true false m50 (Some w51))); ("ignore_nulls", (CD false true m4 None)); ("limit", (CD true false m52 (Some w53))); ("null_order", (CD false true m4 None)); ("order", (CD true false m4 (Some w13))); ("orderby", (CD true false m54 (Some w55))); ("over", (CD true false m56 (Some w57))); ("row_value_alias", (CD true false m3 None)); ("rparen", (CD true false m6 None))].
Definition e59 : entry := En N_CallingFunction (Some true) (Some w46) k47 c58.
Definition k60 : list string := ["arms"; "end"].
Definition m61 : N := 1073741824%N.
Definition c62 : list (string * cdesc) := [("alias", (CD true false m3 None)); ("arms", (CD false true m61 None)); ("as", (CD true false m4 (Some w5))); ("comma", (CD true false m6 (Some w7))); ("end", (CD true false m4 None)); ("expr", (CD true false m3 None)); ("null_order", (CD false true m4 None)); ("order", (CD true false m4 (Some w13))); ("row_value_alias", (CD true false m3 None))].
Definition e63 : entry := En N_CaseExpr (Some true) None k60 c62.
Definition w64 : list string := ["."].
Definition m65 : N := 39643397709410885796373331969%N.
Definition c66 : list (string * cdesc) := [("alias", (CD true false m3 None)); ("as", (CD true false m4 (Some w5))); ("comma", (CD true false m6 (Some w7))); ("for_system_time_as_of", (CD true false m8 (Some w9))); ("left", (CD true false m10 None)); ("match_recognize", (CD true false m11 (Some w12))); ("null_order", (CD false true m4 None)); ("order", (CD true false m4 (Some w13))); ("pivot", (CD true false m14 (Some w15))); ("right", (CD true false m65 None)); ("row_value_alias", (CD true false m3 None)); ("tablesample", (CD true false m16 (Some w17))); ("unpivot", (CD true false m18 (Some w19))); ("with_offset", (CD true false m20 (Some w21)))].
Definition e67 : entry := En N_DotOperator (Some true) (Some w64) k40 c66.
Definition k68 : list string := ["rparen"].
Definition w69 : list string := [")"].
Definition c70 : list (string * cdesc) := [("alias", (CD true false m3 None)); ("as", (CD true false m4 (Some w5))); ("comma", (CD true false m6 (Some w7))); ("null_order", (CD false true m4 None)); ("order", (CD true false m4 (Some w13))); ("rparen", (CD true false m6 (Some w69)))].
Definition e71 : entry := En N_EmptyStruct (Some true) None k68 c70.
Definition w72 : list string := ["FROM"].
Definition k73 : list string := ["expr"].
Definition m74 : N := 40604501290805000098487936221185%N.
Definition m75 : N := 302231454903657293676544%N.
Definition w76 : list string := [";"].
Definition m77 : N := 44601490397061246283071436545296723011960832%N.
Definition c78 : list (string * cdesc) := [("alias", (CD true false m3 None)); ("as", (CD true false m4 (Some w5))); ("colon", (CD true false m6 None)); ("comma", (CD true false m6 (Some w7))); ("expr", (CD true false m74 None)); ("leading_label", (CD true false m75 None)); ("null_order", (CD false true m4 None)); ("order", (CD true false m4 (Some w13))); ("row_value_alias", (CD true false m3 None)); ("semicolon", (CD true false m6 (Some w76))); ("trailing_label", (CD true false m75 None)); ("with", (CD true false m77 (Some w21)))].
Definition e79 : entry := En N_FromStatement (Some true) (Some w72) k73 c78.
Definition c80 : list (string * cdesc) := [("alias", (CD true false m3 None)); ("as", (CD true false m4 (Some w5))); ("comma", (CD true false m6 (Some w7))); ("for_system_time_as_of", (CD true false m8 (Some w9))); ("left", (CD true false m10 None)); ("match_recognize", (CD true false m11 (Some w12))); ("null_order", (CD false true m4 None)); ("order", (CD true false m4 (Some w13))); ("pivot", (CD true false m14 (Some w15))); ("right", (CD true false m10 None)); ("row_value_alias", (CD true false m3 None)); ("tablesample", (CD true false m16 (Some w17))); ("unpivot", (CD true false m18 (Some w19))); ("with_offset", (CD true false m20 (Some w21)))].
Definition e81 : entry := En N_FunctionChain (Some true) (Some w64) k40 c80.
Definition k82 : list string := ["expr"; "rparen"].
Definition m83 : N := 8211431900537629091302554557983796920321%N.
Definition c84 : list (string * cdesc) := [("alias", (CD true false m3 None)); ("as", (CD true false m4 (Some w5))); ("comma", (CD true false m6 (Some w7))); ("expr", (CD true false m83 None)); ("for_system_time_as_of", (CD true false m8 (Some w9))); ("match_recognize", (CD true false m11 (Some w12))); ("null_order", (CD false true m4 None)); ("order", (CD true false m4 (Some w13))); ("pivot", (CD true false m14 (Some w15))); ("rparen", (CD true false m6 None)); ("tablesample", (CD true false m16 (Some w17))); ("unpivot", (CD true false m18 (Some w19))); ("with_offset", (CD true false m20 (Some w21)))].
Definition e85 : entry := En N_GroupedExpr (Some true) None k82 c84.
Definition k86 : list string := ["rparen"; "stmt"].
Definition m87 : N := 154742504910672534362390528%N.
Definition m88 : N := 124655689424043314575993148383690752%N.
Definition c89 : list (string * cdesc) := [("alias", (CD true false m3 None)); ("as", (CD true false m4 (Some w5))); ("colon", (CD true false m6 None)); ("comma", (CD true false m6 (Some w7))); ("for_system_time_as_of", (CD true false m8 (Some w9))); ("leading_label", (CD true false m75 None)); ("limit", (CD true false m87 (Some w53))); ("match_recognize", (CD true false m11 (Some w12))); ("null_order", (CD false true m4 None)); ("order", (CD true false m4 (Some w13))); ("orderby", (CD true false m54 (Some w55))); ("pivot", (CD true false m14 (Some w15))); ("row_value_alias", (CD true false m3 None)); ("rparen", (CD true false m6 None)); ("semicolon", (CD true false m6 (Some w76))); ("stmt", (CD true false m88 None)); ("tablesample", (CD true false m16 (Some w17))); ("trailing_label", (CD true false m75 None)); ("unpivot", (CD true false m18 (Some w19))); ("with", (CD true false m77 (Some w21))); ("with_offset", (CD true false m20 (Some w21)))].
Definition e90 : entry := En N_GroupedStatement (Some true) None k86 c89.
Definition c91 : list (string * cdesc) := [("alias", (CD true false m3 None)); ("as", (CD true false m4 (Some w5))); ("comma", (CD true false m6 (Some w7))); ("for_system_time_as_of", (CD true false m8 (Some w9))); ("match_recognize", (CD true false m11 (Some w12))); ("null_order", (CD false true m4 None)); ("order", (CD true false m4 (Some w13))); ("pivot", (CD true false m14 (Some w15))); ("row_value_alias", (CD true false m3 None)); ("tablesample", (CD true false m16 (Some w17))); ("unpivot", (CD true false m18 (Some w19))); ("with_offset", (CD true false m20 (Some w21)))].
Definition e92 : entry := En N_Identifier (Some true) None k29 c91.
Definition w93 : list string := ["IN"].
Definition m94 : N := 184467440737162625024%N.
Definition c95 : list (string * cdesc) := [("alias", (CD true false m3 None)); ("as", (CD true false m4 (Some w5))); ("comma", (CD true false m6 (Some w7))); ("for_system_time_as_of", (CD true false m8 (Some w9))); ("left", (CD true false m10 None)); ("match_recognize", (CD true false m11 (Some w12))); ("not", (CD true false m4 (Some w36))); ("null_order", (CD false true m4 None)); ("order", (CD true false m4 (Some w13))); ("pivot", (CD true false m14 (Some w15))); ("right", (CD true false m94 None)); ("row_value_alias", (CD true false m3 None)); ("tablesample", (CD true false m16 (Some w17))); ("unpivot", (CD true false m18 (Some w19))); ("with_offset", (CD true false m20 (Some w21)))].
Definition e96 : entry := En N_InOperator (Some true) (Some w93) k40 c95.
Definition k97 : list string := ["date_part"; "expr"].
Definition w98 : list string := ["TO"].
Definition c99 : list (string * cdesc) := [("alias", (CD true false m3 None)); ("as", (CD true false m4 (Some w5))); ("comma", (CD true false m6 (Some w7))); ("date_part", (CD true false m4 None)); ("expr", (CD true false m3 None)); ("null_order", (CD false true m4 None)); ("order", (CD true false m4 (Some w13))); ("row_value_alias", (CD true false m3 None)); ("to", (CD true false m4 (Some w98))); ("to_date_part", (CD true false m4 None))].
Definition e100 : entry := En N_IntervalLiteral (Some true) None k97 c99.
Definition w101 : list string := ["IS"].
Definition k102 : list string := ["distinct"; "from"; "left"; "right"].
Definition c103 : list (string * cdesc) := [("alias", (CD true false m3 None)); ("as", (CD true false m4 (Some w5))); ("comma", (CD true false m6 (Some w7))); ("distinct", (CD true false m4 (Some w49))); ("for_system_time_as_of", (CD true false m8 (Some w9))); ("from", (CD true false m4 None)); ("left", (CD true false m10 None)); ("match_recognize", (CD true false m11 (Some w12))); ("not", (CD true false m4 (Some w36))); ("null_order", (CD false true m4 None)); ("order", (CD true false m4 (Some w13))); ("pivot", (CD true false m14 (Some w15))); ("right", (CD true false m3 None)); ("row_value_alias", (CD true false m3 None)); ("tablesample", (CD true false m16 (Some w17))); ("unpivot", (CD true false m18 (Some w19))); ("with_offset", (CD true false m20 (Some w21)))].
Definition e104 : entry := En N_IsDistinctFromOperator (Some true) (Some w101) k102 c103.
Definition k105 : list string := ["trailing_idents"].
Definition c106 : list (string * cdesc) := [("alias", (CD true false m75 None)); ("as", (CD true false m4 (Some w5))); ("for_system_time_as_of", (CD true false m8 (Some w9))); ("match_recognize", (CD true false m11 (Some w12))); ("null_order", (CD false true m4 None)); ("order", (CD true false m4 (Some w13))); ("pivot", (CD true false m14 (Some w15))); ("tablesample", (CD true false m16 (Some w17))); ("trailing_idents", (CD false true m75 None)); ("unpivot", (CD true false m18 (Some w19))); ("with_offset", (CD true false m20 (Some w21)))].
Definition e107 : entry := En N_MultiTokenIdentifier (Some true) None k105 c106.
Definition e108 : entry := En N_NullLiteral (Some true) None k29 c44.
Definition e109 : entry := En N_NumericLiteral (Some true) None k29 c44.
Definition e110 : entry := En N_Parameter (Some true) None k29 c44.
Definition w111 : list string := ["|>"].
Definition m112 : N := 178514862600577367998096503678270933966258184%N.
Definition c113 : list (string * cdesc) := [("alias", (CD true false m3 None)); ("as", (CD true false m4 (Some w5))); ("colon", (CD true false m6 None)); ("comma", (CD true false m6 (Some w7))); ("for_system_time_as_of", (CD true false m8 (Some w9))); ("leading_label", (CD true false m75 None)); ("left", (CD true false m88 None)); ("match_recognize", (CD true false m11 (Some w12))); ("null_order", (CD false true m4 None)); ("order", (CD true false m4 (Some w13))); ("pivot", (CD true false m14 (Some w15))); ("right", (CD true false m112 None)); ("row_value_alias", (CD true false m3 None)); ("semicolon", (CD true false m6 (Some w76))); ("tablesample", (CD true false m16 (Some w17))); ("trailing_label", (CD true false m75 None)); ("unpivot", (CD true false m18 (Some w19))); ("with", (CD true false m77 (Some w21))); ("with_offset", (CD true false m20 (Some w21)))].
Definition e114 : entry := En N_PipeStatement (Some true) (Some w111) k40 c113.
Definition k115 : list string := ["type"].
Definition w116 : list string := ["RANGE"].
Definition c117 : list (string * cdesc) := [("alias", (CD true false m3 None)); ("as", (CD true false m4 (Some w5))); ("comma", (CD true false m6 (Some w7))); ("null_order", (CD false true m4 None)); ("order", (CD true false m4 (Some w13))); ("row_value_alias", (CD true false m3 None)); ("type", (CD true false m25 (Some w116)))].
Definition e118 : entry := En N_RangeLiteral (Some true) None k115 c117.
Definition k119 : list string := ["exprs"].
Definition m120 : N := 70368744177664%N.
Definition w121 : list string := ["ALL"; "DISTINCT"].
Definition m122 : N := 4611686018427387904%N.
Definition w123 : list string := ["GROUP"].
Definition w124 : list string := ["QUALIFY"].
Definition w125 : list string := ["WHERE"].
Definition m126 : N := 2787593149816327892691964784081045188247552%N.
Definition w127 : list string := ["WINDOW"].
Definition c128 : list (string * cdesc) := [("alias", (CD true false m3 None)); ("as", (CD true false m4 (Some w5))); ("as_struct_or_value", (CD false true m4 None)); ("colon", (CD true false m6 None)); ("comma", (CD true false m6 (Some w7))); ("differential_privacy", (CD true false m120 (Some w21))); ("distinct_or_all", (CD true false m4 (Some w121))); ("exprs", (CD false true m3 None)); ("from", (CD true false m52 (Some w72))); ("groupby", (CD true false m122 (Some w123))); ("having", (CD true false m52 (Some w51))); ("leading_label", (CD true false m75 None)); ("limit", (CD true false m87 (Some w53))); ("null_order", (CD false true m4 None)); ("order", (CD true false m4 (Some w13))); ("orderby", (CD true false m54 (Some w55))); ("qualify", (CD true false m52 (Some w124))); ("row_value_alias", (CD true false m3 None)); ("semicolon", (CD true false m6 (Some w76))); ("trailing_label", (CD true false m75 None)); ("where", (CD true false m52 (Some w125))); ("window", (CD true false m126 (Some w127))); ("with", (CD true false m77 (Some w21)))].
Definition e129 : entry := En N_SelectStatement (Some true) None k119 c128.
Definition k130 : list string := ["distinct_or_all"; "left"; "right"].
Definition w131 : list string := ["BY"].
Definition m132 : N := 3541774862152233910272%N.
Definition w133 : list string := ["CORRESPONDING"; "STRICT"].
Definition m134 : N := 124615124604836010658684501577695232%N.
Definition w135 : list string := ["FULL"; "INNER"; "LEFT"; "OUTER"].
Definition c136 : list (string * cdesc) := [("alias", (CD true false m3 None)); ("as", (CD true false m4 (Some w5))); ("by", (CD true false m50 (Some w131))); ("colon", (CD true false m6 None)); ("comma", (CD true false m6 (Some w7))); ("corresponding", (CD true false m132 (Some w133))); ("distinct_or_all", (CD true false m4 None)); ("leading_label", (CD true false m75 None)); ("left", (CD true false m134 None)); ("limit", (CD true false m87 (Some w53))); ("method", (CD true false m132 (Some w135))); ("null_order", (CD false true m4 None)); ("order", (CD true false m4 (Some w13))); ("orderby", (CD true false m54 (Some w55))); ("right", (CD true false m88 None)); ("row_value_alias", (CD true false m3 None)); ("semicolon", (CD true false m6 (Some w76))); ("trailing_label", (CD true false m75 None)); ("with", (CD true false m77 (Some w21)))].
Definition e137 : entry := En N_SetOperator (Some true) None k130 c136.
Definition e138 : entry := En N_StringLiteral (Some true) None k29 c44.
Definition w139 : list string := ["STRUCT"].
Definition c140 : list (string * cdesc) := [("alias", (CD true false m3 None)); ("as", (CD true false m4 (Some w5))); ("comma", (CD true false m6 (Some w7))); ("exprs", (CD false true m3 None)); ("null_order", (CD false true m4 None)); ("order", (CD true false m4 (Some w13))); ("row_value_alias", (CD true false m3 None)); ("rparen", (CD true false m6 None)); ("type", (CD true false m25 (Some w139)))].
Definition e141 : entry := En N_StructLiteral (Some true) None k24 c140.
Definition e142 : entry := En N_Template (Some true) None k29 c44.
Definition k143 : list string := ["right"].
Definition c144 : list (string * cdesc) := [("alias", (CD true false m3 None)); ("as", (CD true false m4 (Some w5))); ("comma", (CD true false m6 (Some w7))); ("null_order", (CD false true m4 None)); ("order", (CD true false m4 (Some w13))); ("right", (CD true false m10 None)); ("row_value_alias", (CD true false m3 None))].
Definition e145 : entry := En N_UnaryOperator (Some true) None k143 c144.
Definition e146 : entry := En N_Unknown (Some true) None k29 c44.
Definition d147 : desc := [e23; e28; e34; e38; e43; e45; e59; e63; e67; e71; e79; e81; e85; e90; e92; e96; e100; e104; e107; e108; e109; e110; e114; e118; e129; e137; e138; e141; e142; e145; e146].
Definition c148 : list (string * cdesc) := [("and", (CD true false m4 None)); ("left", (CD true false m10 None)); ("right_max", (CD true false m3 None)); ("right_min", (CD true false m3 None))].
Definition e149 : entry := En N_BetweenOperator (Some true) (Some w0) k35 c148.
Definition d150 : desc := [e149].
Definition c151 : list (string * cdesc) := [("left", (CD true false m10 None)); ("not", (CD true false m4 (Some w36))); ("quantifier", (CD true false m4 (Some w41))); ("right", (CD true false m3 None))].
Definition e152 : entry := En N_BinaryOperator (Some true) (Some w101) k40 c151.
Definition d153 : desc := [e152].
Definition w154 : list string := ["LIKE"].
Definition c155 : list (string * cdesc) := [("left", (CD true false m10 None)); ("quantifier", (CD true false m4 (Some w41))); ("right", (CD true false m3 None))].
Definition e156 : entry := En N_BinaryOperator (Some true) (Some w154) k40 c155.
Definition d157 : desc := [e156].
Definition w158 : list string := ["!="; "&"; "*"; "+"; "-"; "/"; "<"; "<<"; "<="; "<>"; "="; "=>"; ">"; ">="; ">>"; "AND"; "LIKE"; "OR"; "^"; "|"; "||"].
Definition e159 : entry := En N_BinaryOperator (Some true) (Some w158) k40 c155.
Definition d160 : desc := [e159].
Definition w161 : list string := ["CONSTRAINT"; "FOREIGN"; "PRIMARY"].
Definition k162 : list string := ["key"].
Definition m163 : N := 36893488147419103232%N.
Definition w164 : list string := ["CONSTRAINT"].
Definition w165 : list string := ["ENFORCED"; "NOT"].
Definition m166 : N := 39614383488587213191554007040%N.
Definition w167 : list string := ["REFERENCES"].
Definition c168 : list (string * cdesc) := [("columns", (CD true false m163 (Some w46))); ("constraint", (CD true false m4 (Some w164))); ("enforced", (CD true false m132 (Some w165))); ("ident", (CD true false m166 None)); ("if_not_exists", (CD false true m4 None)); ("key", (CD true false m4 None)); ("references", (CD true false m52 (Some w167)))].
Definition e169 : entry := En N_Constraint (Some true) None k162 c168.
Definition d170 : desc := [e169].
Definition w171 : list string := ["TRAINING_DATA"].
Definition k172 : list string := ["as"; "stmt"].
Definition m173 : N := 147573952589676412928%N.
Definition c174 : list (string * cdesc) := [("as", (CD true false m4 None)); ("comma", (CD true false m6 (Some w7))); ("stmt", (CD true false m173 None))].
Definition e175 : entry := En N_WithQuery (Some true) (Some w171) k172 c174.
Definition d176 : desc := [e175].
Definition e177 : entry := En N_WithQuery (Some true) None k172 c174.
Definition d178 : desc := [e177].
Definition w179 : list string := ["ENFORCED"].
Definition c180 : list (string * cdesc) := [].
Definition e181 : entry := En N_Keyword (Some true) (Some w179) k29 c180.
Definition k182 : list string := ["next_keyword"].
Definition c183 : list (string * cdesc) := [("next_keyword", (CD true false m4 None))].
Definition e184 : entry := En N_KeywordSequence (Some true) (Some w36) k182 c183.
Definition d185 : desc := [e181; e184].
Definition w186 : list string := ["UNNEST"].
Definition m187 : N := 5487053169135463240255653064830270046209%N.
Definition w188 : list string := ["!="; "&"; "("; "*"; "+"; "-"; "."; "/"; "<"; "<<"; "<="; "<>"; "="; "=>"; ">"; ">="; ">>"; "AND"; "BETWEEN"; "IN"; "IS"; "LIKE"; "OR"; "UNNEST"; "["; "^"; "|"; "||"].
Definition c189 : list (string * cdesc) := [("left", (CD true false m187 (Some w188))); ("null_order", (CD false true m4 None)); ("order", (CD true false m4 (Some w13))); ("right", (CD true false m3 None)); ("rparen", (CD true false m6 None))].
Definition e190 : entry := En N_AccessOperator (Some true) (Some w1) k2 c189.
Definition c191 : list (string * cdesc) := [("and", (CD true false m4 None)); ("left", (CD true false m10 None)); ("not", (CD true false m4 (Some w36))); ("null_order", (CD false true m4 None)); ("order", (CD true false m4 (Some w13))); ("right_max", (CD true false m3 None)); ("right_min", (CD true false m3 None))].
Definition e192 : entry := En N_BetweenOperator (Some true) (Some w0) k35 c191.
Definition c193 : list (string * cdesc) := [("left", (CD true false m10 None)); ("not", (CD true false m4 (Some w36))); ("null_order", (CD false true m4 None)); ("order", (CD true false m4 (Some w13))); ("quantifier", (CD true false m4 (Some w41))); ("right", (CD true false m3 None))].
Definition e194 : entry := En N_BinaryOperator (Some true) (Some w39) k40 c193.
Definition c195 : list (string * cdesc) := [("args", (CD false true m48 None)); ("distinct", (CD true false m4 (Some w49))); ("func", (CD true false m187 (Some w188))); ("having", (CD true false m50 (Some w51))); ("ignore_nulls", (CD false true m4 None)); ("limit", (CD true false m52 (Some w53))); ("null_order", (CD false true m4 None)); ("order", (CD true false m4 (Some w13))); ("orderby", (CD true false m54 (Some w55))); ("over", (CD true false m56 (Some w57))); ("rparen", (CD true false m6 None))].
Definition e196 : entry := En N_CallingFunction (Some true) (Some w46) k47 c195.
Definition m197 : N := 29316452278716999601356801%N.
Definition c198 : list (string * cdesc) := [("left", (CD true false m187 (Some w188))); ("null_order", (CD false true m4 None)); ("order", (CD true false m4 (Some w13))); ("right", (CD true false m197 None))].
Definition e199 : entry := En N_DotOperator (Some true) (Some w64) k40 c198.
Definition c200 : list (string * cdesc) := [("left", (CD true false m187 (Some w188))); ("null_order", (CD false true m4 None)); ("order", (CD true false m4 (Some w13))); ("right", (CD true false m3 None))].
Definition e201 : entry := En N_FunctionChain (Some true) (Some w64) k40 c200.
Definition c202 : list (string * cdesc) := [("null_order", (CD false true m4 None)); ("order", (CD true false m4 (Some w13)))].
Definition e203 : entry := En N_Identifier (Some true) (Some w186) k29 c202.
Definition c204 : list (string * cdesc) := [("left", (CD true false m10 None)); ("not", (CD true false m4 (Some w36))); ("null_order", (CD false true m4 None)); ("order", (CD true false m4 (Some w13))); ("right", (CD true false m94 None))].
Definition e205 : entry := En N_InOperator (Some true) (Some w93) k40 c204.
Definition c206 : list (string * cdesc) := [("distinct", (CD true false m4 (Some w49))); ("from", (CD true false m4 None)); ("left", (CD true false m10 None)); ("not", (CD true false m4 (Some w36))); ("null_order", (CD false true m4 None)); ("order", (CD true false m4 (Some w13))); ("right", (CD true false m3 None))].
Definition e207 : entry := En N_IsDistinctFromOperator (Some true) (Some w101) k102 c206.
Definition e208 : entry := En N_Parameter (Some true) (Some w186) k29 c202.
Definition e209 : entry := En N_Template (Some true) (Some w186) k29 c202.
Definition e210 : entry := En N_Unknown (Some true) (Some w186) k29 c202.
Definition d211 : desc := [e190; e192; e194; e196; e199; e201; e203; e205; e207; e208; e209; e210].
Definition w212 : list string := ["~("].
Definition m213 : N := 39643397709410885796373200897%N.
Definition c214 : list (string * cdesc) := [("left", (CD true false m213 None)); ("null_order", (CD false true m4 None)); ("order", (CD true false m4 (Some w13))); ("right", (CD true false m3 None)); ("rparen", (CD true false m6 None))].
Definition e215 : entry := En N_AccessOperator (Some true) (Some w1) k2 c214.
Definition c216 : list (string * cdesc) := [("args", (CD false true m48 None)); ("distinct", (CD true false m4 (Some w49))); ("func", (CD true false m213 None)); ("having", (CD true false m50 (Some w51))); ("ignore_nulls", (CD false true m4 None)); ("limit", (CD true false m52 (Some w53))); ("null_order", (CD false true m4 None)); ("order", (CD true false m4 (Some w13))); ("orderby", (CD true false m54 (Some w55))); ("over", (CD true false m56 (Some w57))); ("rparen", (CD true false m6 None))].
Definition e217 : entry := En N_CallingFunction (Some true) (Some w46) k47 c216.
Definition c218 : list (string * cdesc) := [("left", (CD true false m213 None)); ("null_order", (CD false true m4 None)); ("order", (CD true false m4 (Some w13))); ("right", (CD true false m65 None))].
Definition e219 : entry := En N_DotOperator (Some true) (Some w64) k40 c218.
Definition e220 : entry := En N_FunctionChain (Some true) (Some w64) k40 c218.
Definition e221 : entry := En N_Identifier (Some true) None k29 c202.
Definition c222 : list (string * cdesc) := [("null_order", (CD false true m4 None)); ("order", (CD true false m4 (Some w13))); ("trailing_idents", (CD false true m75 None))].
Definition e223 : entry := En N_MultiTokenIdentifier (Some true) None k105 c222.
Definition d224 : desc := [e215; e192; e194; e217; e219; e220; e221; e205; e207; e223].
Definition w225 : list string := ["*"].
Definition m226 : N := 29014220823813342307680257%N.
Definition w227 : list string := ["!="; "&"; "("; "*"; "+"; "-"; "."; "/"; "<"; "<<"; "<="; "<>"; "="; "=>"; ">"; ">="; ">>"; "AND"; "BETWEEN"; "IN"; "IS"; "LIKE"; "OR"; "["; "^"; "|"; "||"].
Definition c228 : list (string * cdesc) := [("left", (CD true false m226 (Some w227))); ("null_order", (CD false true m4 None)); ("order", (CD true false m4 (Some w13))); ("right", (CD true false m3 None)); ("rparen", (CD true false m6 None))].
Definition e229 : entry := En N_AccessOperator (Some true) (Some w1) k2 c228.
Definition c230 : list (string * cdesc) := [("except", (CD true false m30 (Some w31))); ("null_order", (CD false true m4 None)); ("order", (CD true false m4 (Some w13))); ("replace", (CD true false m30 (Some w32)))].
Definition e231 : entry := En N_Asterisk (Some true) (Some w225) k29 c230.
Definition c232 : list (string * cdesc) := [("args", (CD false true m48 None)); ("distinct", (CD true false m4 (Some w49))); ("func", (CD true false m226 (Some w227))); ("having", (CD true false m50 (Some w51))); ("ignore_nulls", (CD false true m4 None)); ("limit", (CD true false m52 (Some w53))); ("null_order", (CD false true m4 None)); ("order", (CD true false m4 (Some w13))); ("orderby", (CD true false m54 (Some w55))); ("over", (CD true false m56 (Some w57))); ("rparen", (CD true false m6 None))].
Definition e233 : entry := En N_CallingFunction (Some true) (Some w46) k47 c232.
Definition c234 : list (string * cdesc) := [("left", (CD true false m226 (Some w227))); ("null_order", (CD false true m4 None)); ("order", (CD true false m4 (Some w13))); ("right", (CD true false m197 None))].
Definition e235 : entry := En N_DotOperator (Some true) (Some w64) k40 c234.
Definition c236 : list (string * cdesc) := [("left", (CD true false m226 (Some w227))); ("null_order", (CD false true m4 None)); ("order", (CD true false m4 (Some w13))); ("right", (CD true false m3 None))].
Definition e237 : entry := En N_FunctionChain (Some true) (Some w64) k40 c236.
Definition d238 : desc := [e229; e231; e192; e194; e233; e235; e237; e205; e207].
Definition m239 : N := 8211431900497976322039560231945174155265%N.
Definition c240 : list (string * cdesc) := [("alias", (CD true false m3 None)); ("as", (CD true false m4 (Some w5))); ("left", (CD true false m239 None)); ("null_order", (CD false true m4 None)); ("order", (CD true false m4 (Some w13))); ("right", (CD true false m3 None)); ("rparen", (CD true false m6 None))].
Definition e241 : entry := En N_AccessOperator (Some true) (Some w1) k2 c240.
Definition c242 : list (string * cdesc) := [("alias", (CD true false m3 None)); ("as", (CD true false m4 (Some w5))); ("exprs", (CD false true m3 None)); ("null_order", (CD false true m4 None)); ("order", (CD true false m4 (Some w13))); ("rparen", (CD true false m6 None)); ("type", (CD true false m25 (Some w26)))].
Definition e243 : entry := En N_ArrayLiteral (Some true) None k24 c242.
Definition c244 : list (string * cdesc) := [("alias", (CD true false m3 None)); ("as", (CD true false m4 (Some w5))); ("except", (CD true false m30 (Some w31))); ("null_order", (CD false true m4 None)); ("order", (CD true false m4 (Some w13))); ("replace", (CD true false m30 (Some w32)))].
Definition e245 : entry := En N_Asterisk (Some true) None k29 c244.
Definition c246 : list (string * cdesc) := [("alias", (CD true false m3 None)); ("and", (CD true false m4 None)); ("as", (CD true false m4 (Some w5))); ("left", (CD true false m10 None)); ("not", (CD true false m4 (Some w36))); ("null_order", (CD false true m4 None)); ("order", (CD true false m4 (Some w13))); ("right_max", (CD true false m3 None)); ("right_min", (CD true false m3 None))].
Definition e247 : entry := En N_BetweenOperator (Some true) (Some w0) k35 c246.
Definition c248 : list (string * cdesc) := [("alias", (CD true false m3 None)); ("as", (CD true false m4 (Some w5))); ("left", (CD true false m10 None)); ("not", (CD true false m4 (Some w36))); ("null_order", (CD false true m4 None)); ("order", (CD true false m4 (Some w13))); ("quantifier", (CD true false m4 (Some w41))); ("right", (CD true false m3 None))].
Definition e249 : entry := En N_BinaryOperator (Some true) (Some w39) k40 c248.
Definition c250 : list (string * cdesc) := [("alias", (CD true false m3 None)); ("as", (CD true false m4 (Some w5))); ("null_order", (CD false true m4 None)); ("order", (CD true false m4 (Some w13)))].
Definition e251 : entry := En N_BooleanLiteral (Some true) None k29 c250.
Definition c252 : list (string * cdesc) := [("alias", (CD true false m3 None)); ("args", (CD false true m48 None)); ("as", (CD true false m4 (Some w5))); ("distinct", (CD true false m4 (Some w49))); ("func", (CD true false m239 None)); ("having", (CD true false m50 (Some w51))); ("ignore_nulls", (CD false true m4 None)); ("limit", (CD true false m52 (Some w53))); ("null_order", (CD false true m4 None)); ("order", (CD true false m4 (Some w13))); ("orderby", (CD true false m54 (Some w55))); ("over", (CD true false m56 (Some w57))); ("rparen", (CD true false m6 None))].
Definition e253 : entry := En N_CallingFunction (Some true) (Some w46) k47 c252.
Definition c254 : list (string * cdesc) := [("alias", (CD true false m3 None)); ("arms", (CD false true m61 None)); ("as", (CD true false m4 (Some w5))); ("end", (CD true false m4 None)); ("expr", (CD true false m3 None)); ("null_order", (CD false true m4 None)); ("order", (CD true false m4 (Some w13)))].
Definition e255 : entry := En N_CaseExpr (Some true) None k60 c254.
Definition c256 : list (string * cdesc) := [("alias", (CD true false m3 None)); ("as", (CD true false m4 (Some w5))); ("left", (CD true false m239 None)); ("null_order", (CD false true m4 None)); ("order", (CD true false m4 (Some w13))); ("right", (CD true false m197 None))].
Definition e257 : entry := En N_DotOperator (Some true) (Some w64) k40 c256.
Definition k258 : list string := ["expr"; "with"].
Definition c259 : list (string * cdesc) := [("alias", (CD true false m3 None)); ("as", (CD true false m4 (Some w5))); ("expr", (CD true false m74 None)); ("null_order", (CD false true m4 None)); ("order", (CD true false m4 (Some w13))); ("semicolon", (CD true false m6 (Some w76))); ("with", (CD true false m77 (Some w21)))].
Definition e260 : entry := En N_FromStatement (Some true) (Some w72) k258 c259.
Definition c261 : list (string * cdesc) := [("alias", (CD true false m3 None)); ("as", (CD true false m4 (Some w5))); ("left", (CD true false m239 None)); ("null_order", (CD false true m4 None)); ("order", (CD true false m4 (Some w13))); ("right", (CD true false m3 None))].
Definition e262 : entry := En N_FunctionChain (Some true) (Some w64) k40 c261.
Definition k263 : list string := ["rparen"; "stmt"; "with"].
Definition c264 : list (string * cdesc) := [("alias", (CD true false m3 None)); ("as", (CD true false m4 (Some w5))); ("limit", (CD true false m87 (Some w53))); ("null_order", (CD false true m4 None)); ("order", (CD true false m4 (Some w13))); ("orderby", (CD true false m54 (Some w55))); ("rparen", (CD true false m6 (Some w69))); ("stmt", (CD true false m88 None)); ("with", (CD true false m77 (Some w21)))].
Definition e265 : entry := En N_GroupedStatement (Some true) (Some w46) k263 c264.
Definition e266 : entry := En N_Identifier (Some true) None k29 c250.
Definition c267 : list (string * cdesc) := [("alias", (CD true false m3 None)); ("as", (CD true false m4 (Some w5))); ("left", (CD true false m10 None)); ("not", (CD true false m4 (Some w36))); ("null_order", (CD false true m4 None)); ("order", (CD true false m4 (Some w13))); ("right", (CD true false m94 None))].
Definition e268 : entry := En N_InOperator (Some true) (Some w93) k40 c267.
Definition c269 : list (string * cdesc) := [("alias", (CD true false m3 None)); ("as", (CD true false m4 (Some w5))); ("date_part", (CD true false m4 None)); ("expr", (CD true false m3 None)); ("null_order", (CD false true m4 None)); ("order", (CD true false m4 (Some w13))); ("to", (CD true false m4 (Some w98))); ("to_date_part", (CD true false m4 None))].
Definition e270 : entry := En N_IntervalLiteral (Some true) None k97 c269.
Definition c271 : list (string * cdesc) := [("alias", (CD true false m3 None)); ("as", (CD true false m4 (Some w5))); ("distinct", (CD true false m4 (Some w49))); ("from", (CD true false m4 None)); ("left", (CD true false m10 None)); ("not", (CD true false m4 (Some w36))); ("null_order", (CD false true m4 None)); ("order", (CD true false m4 (Some w13))); ("right", (CD true false m3 None))].
Definition e272 : entry := En N_IsDistinctFromOperator (Some true) (Some w101) k102 c271.
Definition e273 : entry := En N_NullLiteral (Some true) None k29 c250.
Definition e274 : entry := En N_NumericLiteral (Some true) None k29 c250.
Definition e275 : entry := En N_Parameter (Some true) None k29 c250.
Definition c276 : list (string * cdesc) := [("alias", (CD true false m3 None)); ("as", (CD true false m4 (Some w5))); ("left", (CD true false m88 None)); ("null_order", (CD false true m4 None)); ("order", (CD true false m4 (Some w13))); ("right", (CD true false m112 None)); ("semicolon", (CD true false m6 (Some w76))); ("with", (CD true false m77 (Some w21)))].
Definition e277 : entry := En N_PipeStatement (Some true) (Some w111) k40 c276.
Definition c278 : list (string * cdesc) := [("alias", (CD true false m3 None)); ("as", (CD true false m4 (Some w5))); ("null_order", (CD false true m4 None)); ("order", (CD true false m4 (Some w13))); ("type", (CD true false m25 (Some w116)))].
Definition e279 : entry := En N_RangeLiteral (Some true) None k115 c278.
Definition w280 : list string := ["SELECT"; "|>"].
Definition c281 : list (string * cdesc) := [("alias", (CD true false m3 None)); ("as", (CD true false m4 (Some w5))); ("as_struct_or_value", (CD false true m4 None)); ("differential_privacy", (CD true false m120 (Some w21))); ("distinct_or_all", (CD true false m4 (Some w121))); ("exprs", (CD false true m3 None)); ("from", (CD true false m52 (Some w72))); ("groupby", (CD true false m122 (Some w123))); ("having", (CD true false m52 (Some w51))); ("limit", (CD true false m87 (Some w53))); ("null_order", (CD false true m4 None)); ("order", (CD true false m4 (Some w13))); ("orderby", (CD true false m54 (Some w55))); ("qualify", (CD true false m52 (Some w124))); ("where", (CD true false m52 (Some w125))); ("window", (CD true false m126 (Some w127))); ("with", (CD true false m77 (Some w21)))].
Definition e282 : entry := En N_SelectStatement (Some true) (Some w280) k119 c281.
Definition c283 : list (string * cdesc) := [("alias", (CD true false m3 None)); ("as", (CD true false m4 (Some w5))); ("by", (CD true false m50 (Some w131))); ("corresponding", (CD true false m132 (Some w133))); ("distinct_or_all", (CD true false m4 None)); ("left", (CD true false m134 None)); ("limit", (CD true false m87 (Some w53))); ("method", (CD true false m132 (Some w135))); ("null_order", (CD false true m4 None)); ("order", (CD true false m4 (Some w13))); ("orderby", (CD true false m54 (Some w55))); ("right", (CD true false m88 None)); ("with", (CD true false m77 (Some w21)))].
Definition e284 : entry := En N_SetOperator (Some true) None k130 c283.
Definition e285 : entry := En N_StringLiteral (Some true) None k29 c250.
Definition k286 : list string := ["exprs"; "rparen"; "type"].
Definition c287 : list (string * cdesc) := [("alias", (CD true false m3 None)); ("as", (CD true false m4 (Some w5))); ("exprs", (CD false true m3 None)); ("null_order", (CD false true m4 None)); ("order", (CD true false m4 (Some w13))); ("rparen", (CD true false m6 (Some w69))); ("type", (CD true false m25 (Some w139)))].
Definition e288 : entry := En N_StructLiteral (Some true) None k286 c287.
Definition e289 : entry := En N_Template (Some true) None k29 c250.
Definition c290 : list (string * cdesc) := [("alias", (CD true false m3 None)); ("as", (CD true false m4 (Some w5))); ("null_order", (CD false true m4 None)); ("order", (CD true false m4 (Some w13))); ("right", (CD true false m10 None))].
Definition e291 : entry := En N_UnaryOperator (Some true) None k143 c290.
Definition e292 : entry := En N_Unknown (Some true) None k29 c250.
Definition d293 : desc := [e241; e243; e245; e247; e249; e251; e253; e255; e257; e260; e262; e265; e266; e268; e270; e272; e273; e274; e275; e277; e279; e282; e284; e285; e288; e289; e291; e292].
Definition c294 : list (string * cdesc) := [("left", (CD true false m239 None)); ("null_order", (CD false true m4 None)); ("order", (CD true false m4 (Some w13))); ("right", (CD true false m3 None)); ("rparen", (CD true false m6 None))].
Definition e295 : entry := En N_AccessOperator (Some true) (Some w1) k2 c294.
Definition c296 : list (string * cdesc) := [("exprs", (CD false true m3 None)); ("null_order", (CD false true m4 None)); ("order", (CD true false m4 (Some w13))); ("rparen", (CD true false m6 None)); ("type", (CD true false m25 (Some w26)))].
Definition e297 : entry := En N_ArrayLiteral (Some true) None k24 c296.
Definition e298 : entry := En N_Asterisk (Some true) None k29 c230.
Definition e299 : entry := En N_BooleanLiteral (Some true) None k29 c202.
Definition c300 : list (string * cdesc) := [("args", (CD false true m48 None)); ("distinct", (CD true false m4 (Some w49))); ("func", (CD true false m239 None)); ("having", (CD true false m50 (Some w51))); ("ignore_nulls", (CD false true m4 None)); ("limit", (CD true false m52 (Some w53))); ("null_order", (CD false true m4 None)); ("order", (CD true false m4 (Some w13))); ("orderby", (CD true false m54 (Some w55))); ("over", (CD true false m56 (Some w57))); ("rparen", (CD true false m6 None))].
Definition e301 : entry := En N_CallingFunction (Some true) (Some w46) k47 c300.
Definition c302 : list (string * cdesc) := [("arms", (CD false true m61 None)); ("end", (CD true false m4 None)); ("expr", (CD true false m3 None)); ("null_order", (CD false true m4 None)); ("order", (CD true false m4 (Some w13)))].
Definition e303 : entry := En N_CaseExpr (Some true) None k60 c302.
Definition c304 : list (string * cdesc) := [("left", (CD true false m239 None)); ("null_order", (CD false true m4 None)); ("order", (CD true false m4 (Some w13))); ("right", (CD true false m197 None))].
Definition e305 : entry := En N_DotOperator (Some true) (Some w64) k40 c304.
Definition c306 : list (string * cdesc) := [("expr", (CD true false m74 None)); ("null_order", (CD false true m4 None)); ("order", (CD true false m4 (Some w13))); ("semicolon", (CD true false m6 (Some w76))); ("with", (CD true false m77 (Some w21)))].
Definition e307 : entry := En N_FromStatement (Some true) (Some w72) k258 c306.
Definition c308 : list (string * cdesc) := [("left", (CD true false m239 None)); ("null_order", (CD false true m4 None)); ("order", (CD true false m4 (Some w13))); ("right", (CD true false m3 None))].
Definition e309 : entry := En N_FunctionChain (Some true) (Some w64) k40 c308.
Definition c310 : list (string * cdesc) := [("limit", (CD true false m87 (Some w53))); ("null_order", (CD false true m4 None)); ("order", (CD true false m4 (Some w13))); ("orderby", (CD true false m54 (Some w55))); ("rparen", (CD true false m6 (Some w69))); ("stmt", (CD true false m88 None)); ("with", (CD true false m77 (Some w21)))].
Definition e311 : entry := En N_GroupedStatement (Some true) (Some w46) k263 c310.
Definition c312 : list (string * cdesc) := [("date_part", (CD true false m4 None)); ("expr", (CD true false m3 None)); ("null_order", (CD false true m4 None)); ("order", (CD true false m4 (Some w13))); ("to", (CD true false m4 (Some w98))); ("to_date_part", (CD true false m4 None))].
Definition e313 : entry := En N_IntervalLiteral (Some true) None k97 c312.
Definition e314 : entry := En N_NullLiteral (Some true) None k29 c202.
Definition e315 : entry := En N_NumericLiteral (Some true) None k29 c202.
Definition e316 : entry := En N_Parameter (Some true) None k29 c202.
Definition c317 : list (string * cdesc) := [("left", (CD true false m88 None)); ("null_order", (CD false true m4 None)); ("order", (CD true false m4 (Some w13))); ("right", (CD true false m112 None)); ("semicolon", (CD true false m6 (Some w76))); ("with", (CD true false m77 (Some w21)))].
Definition e318 : entry := En N_PipeStatement (Some true) (Some w111) k40 c317.
Definition c319 : list (string * cdesc) := [("null_order", (CD false true m4 None)); ("order", (CD true false m4 (Some w13))); ("type", (CD true false m25 (Some w116)))].
Definition e320 : entry := En N_RangeLiteral (Some true) None k115 c319.
Definition c321 : list (string * cdesc) := [("as_struct_or_value", (CD false true m4 None)); ("differential_privacy", (CD true false m120 (Some w21))); ("distinct_or_all", (CD true false m4 (Some w121))); ("exprs", (CD false true m3 None)); ("from", (CD true false m52 (Some w72))); ("groupby", (CD true false m122 (Some w123))); ("having", (CD true false m52 (Some w51))); ("limit", (CD true false m87 (Some w53))); ("null_order", (CD false true m4 None)); ("order", (CD true false m4 (Some w13))); ("orderby", (CD true false m54 (Some w55))); ("qualify", (CD true false m52 (Some w124))); ("where", (CD true false m52 (Some w125))); ("window", (CD true false m126 (Some w127))); ("with", (CD true false m77 (Some w21)))].
Definition e322 : entry := En N_SelectStatement (Some true) (Some w280) k119 c321.
Definition c323 : list (string * cdesc) := [("by", (CD true false m50 (Some w131))); ("corresponding", (CD true false m132 (Some w133))); ("distinct_or_all", (CD true false m4 None)); ("left", (CD true false m134 None)); ("limit", (CD true false m87 (Some w53))); ("method", (CD true false m132 (Some w135))); ("null_order", (CD false true m4 None)); ("order", (CD true false m4 (Some w13))); ("orderby", (CD true false m54 (Some w55))); ("right", (CD true false m88 None)); ("with", (CD true false m77 (Some w21)))].
Definition e324 : entry := En N_SetOperator (Some true) None k130 c323.
Definition e325 : entry := En N_StringLiteral (Some true) None k29 c202.
Definition c326 : list (string * cdesc) := [("exprs", (CD false true m3 None)); ("null_order", (CD false true m4 None)); ("order", (CD true false m4 (Some w13))); ("rparen", (CD true false m6 (Some w69))); ("type", (CD true false m25 (Some w139)))].
Definition e327 : entry := En N_StructLiteral (Some true) None k286 c326.
Definition e328 : entry := En N_Template (Some true) None k29 c202.
Definition c329 : list (string * cdesc) := [("null_order", (CD false true m4 None)); ("order", (CD true false m4 (Some w13))); ("right", (CD true false m10 None))].
Definition e330 : entry := En N_UnaryOperator (Some true) None k143 c329.
Definition e331 : entry := En N_Unknown (Some true) None k29 c202.
Definition d332 : desc := [e295; e297; e298; e192; e194; e299; e301; e303; e305; e307; e309; e311; e221; e205; e313; e207; e314; e315; e316; e318; e320; e322; e324; e325; e327; e328; e330; e331].
Definition c333 : list (string * cdesc) := [("left", (CD true false m3 None)); ("null_order", (CD false true m4 None)); ("order", (CD true false m4 (Some w13))); ("right", (CD true false m3 None)); ("rparen", (CD true false m6 None))].
Definition e334 : entry := En N_AccessOperator (Some true) (Some w1) k2 c333.
Definition c335 : list (string * cdesc) := [("args", (CD false true m48 None)); ("distinct", (CD true false m4 (Some w49))); ("func", (CD true false m3 None)); ("having", (CD true false m50 (Some w51))); ("ignore_nulls", (CD false true m4 None)); ("limit", (CD true false m52 (Some w53))); ("null_order", (CD false true m4 None)); ("order", (CD true false m4 (Some w13))); ("orderby", (CD true false m54 (Some w55))); ("over", (CD true false m56 (Some w57))); ("rparen", (CD true false m6 None))].
Definition e336 : entry := En N_CallingFunction (Some true) (Some w46) k47 c335.
Definition c337 : list (string * cdesc) := [("left", (CD true false m3 None)); ("null_order", (CD false true m4 None)); ("order", (CD true false m4 (Some w13))); ("right", (CD true false m197 None))].
Definition e338 : entry := En N_DotOperator (Some true) (Some w64) k40 c337.
Definition c339 : list (string * cdesc) := [("null_order", (CD false true m4 None)); ("order", (CD true false m4 (Some w13))); ("rparen", (CD true false m6 (Some w69)))].
Definition e340 : entry := En N_EmptyStruct (Some true) None k68 c339.
Definition c341 : list (string * cdesc) := [("left", (CD true false m3 None)); ("null_order", (CD false true m4 None)); ("order", (CD true false m4 (Some w13))); ("right", (CD true false m3 None))].
Definition e342 : entry := En N_FunctionChain (Some true) (Some w64) k40 c341.
Definition c343 : list (string * cdesc) := [("expr", (CD true false m3 None)); ("null_order", (CD false true m4 None)); ("order", (CD true false m4 (Some w13))); ("rparen", (CD true false m6 None))].
Definition e344 : entry := En N_GroupedExpr (Some true) None k82 c343.
Definition c345 : list (string * cdesc) := [("limit", (CD true false m87 (Some w53))); ("null_order", (CD false true m4 None)); ("order", (CD true false m4 (Some w13))); ("orderby", (CD true false m54 (Some w55))); ("rparen", (CD true false m6 None)); ("stmt", (CD true false m88 None)); ("with", (CD true false m77 (Some w21)))].
Definition e346 : entry := En N_GroupedStatement (Some true) None k86 c345.
Definition c347 : list (string * cdesc) := [("exprs", (CD false true m3 None)); ("null_order", (CD false true m4 None)); ("order", (CD true false m4 (Some w13))); ("rparen", (CD true false m6 None)); ("type", (CD true false m25 (Some w139)))].
Definition e348 : entry := En N_StructLiteral (Some true) None k24 c347.
Definition d349 : desc := [e334; e297; e298; e192; e194; e299; e336; e303; e338; e340; e307; e342; e344; e346; e221; e205; e313; e207; e314; e315; e316; e318; e320; e322; e324; e325; e348; e328; e330; e331].
Definition c350 : list (string * cdesc) := [("alias", (CD true false m3 None)); ("as", (CD true false m4 (Some w5))); ("left", (CD true false m3 None)); ("null_order", (CD false true m4 None)); ("order", (CD true false m4 (Some w13))); ("right", (CD true false m3 None)); ("rparen", (CD true false m6 None))].
Definition e351 : entry := En N_AccessOperator (Some true) (Some w1) k2 c350.
Definition c352 : list (string * cdesc) := [("alias", (CD true false m3 None)); ("args", (CD false true m48 None)); ("as", (CD true false m4 (Some w5))); ("distinct", (CD true false m4 (Some w49))); ("func", (CD true false m3 None)); ("having", (CD true false m50 (Some w51))); ("ignore_nulls", (CD false true m4 None)); ("limit", (CD true false m52 (Some w53))); ("null_order", (CD false true m4 None)); ("order", (CD true false m4 (Some w13))); ("orderby", (CD true false m54 (Some w55))); ("over", (CD true false m56 (Some w57))); ("rparen", (CD true false m6 None))].
Definition e353 : entry := En N_CallingFunction (Some true) (Some w46) k47 c352.
Definition c354 : list (string * cdesc) := [("alias", (CD true false m3 None)); ("as", (CD true false m4 (Some w5))); ("left", (CD true false m3 None)); ("null_order", (CD false true m4 None)); ("order", (CD true false m4 (Some w13))); ("right", (CD true false m197 None))].
Definition e355 : entry := En N_DotOperator (Some true) (Some w64) k40 c354.
Definition c356 : list (string * cdesc) := [("alias", (CD true false m3 None)); ("as", (CD true false m4 (Some w5))); ("null_order", (CD false true m4 None)); ("order", (CD true false m4 (Some w13))); ("rparen", (CD true false m6 (Some w69)))].
Definition e357 : entry := En N_EmptyStruct (Some true) None k68 c356.
Definition c358 : list (string * cdesc) := [("alias", (CD true false m3 None)); ("as", (CD true false m4 (Some w5))); ("left", (CD true false m3 None)); ("null_order", (CD false true m4 None)); ("order", (CD true false m4 (Some w13))); ("right", (CD true false m3 None))].
Definition e359 : entry := En N_FunctionChain (Some true) (Some w64) k40 c358.
Definition c360 : list (string * cdesc) := [("alias", (CD true false m3 None)); ("as", (CD true false m4 (Some w5))); ("expr", (CD true false m3 None)); ("null_order", (CD false true m4 None)); ("order", (CD true false m4 (Some w13))); ("rparen", (CD true false m6 None))].
Definition e361 : entry := En N_GroupedExpr (Some true) None k82 c360.
Definition c362 : list (string * cdesc) := [("alias", (CD true false m3 None)); ("as", (CD true false m4 (Some w5))); ("limit", (CD true false m87 (Some w53))); ("null_order", (CD false true m4 None)); ("order", (CD true false m4 (Some w13))); ("orderby", (CD true false m54 (Some w55))); ("rparen", (CD true false m6 None)); ("stmt", (CD true false m88 None)); ("with", (CD true false m77 (Some w21)))].
Definition e363 : entry := En N_GroupedStatement (Some true) None k86 c362.
Definition c364 : list (string * cdesc) := [("alias", (CD true false m3 None)); ("as", (CD true false m4 (Some w5))); ("exprs", (CD false true m3 None)); ("null_order", (CD false true m4 None)); ("order", (CD true false m4 (Some w13))); ("rparen", (CD true false m6 None)); ("type", (CD true false m25 (Some w139)))].
Definition e365 : entry := En N_StructLiteral (Some true) None k24 c364.
Definition d366 : desc := [e351; e243; e245; e247; e249; e251; e353; e255; e355; e357; e260; e359; e361; e363; e266; e268; e270; e272; e273; e274; e275; e277; e279; e282; e284; e285; e365; e289; e291; e292].
Definition m367 : N := 29316452278716999601225729%N.
Definition c368 : list (string * cdesc) := [("left", (CD true false m367 None)); ("null_order", (CD false true m4 None)); ("order", (CD true false m4 (Some w13))); ("right", (CD true false m3 None)); ("rparen", (CD true false m6 None))].
Definition e369 : entry := En N_AccessOperator (Some true) (Some w1) k2 c368.
Definition c370 : list (string * cdesc) := [("args", (CD false true m48 None)); ("distinct", (CD true false m4 (Some w49))); ("func", (CD true false m367 None)); ("having", (CD true false m50 (Some w51))); ("ignore_nulls", (CD false true m4 None)); ("limit", (CD true false m52 (Some w53))); ("null_order", (CD false true m4 None)); ("order", (CD true false m4 (Some w13))); ("orderby", (CD true false m54 (Some w55))); ("over", (CD true false m56 (Some w57))); ("rparen", (CD true false m6 None))].
Definition e371 : entry := En N_CallingFunction (Some true) (Some w46) k47 c370.
Definition c372 : list (string * cdesc) := [("left", (CD true false m367 None)); ("null_order", (CD false true m4 None)); ("order", (CD true false m4 (Some w13))); ("right", (CD true false m197 None))].
Definition e373 : entry := En N_DotOperator (Some true) (Some w64) k40 c372.
Definition c374 : list (string * cdesc) := [("left", (CD true false m367 None)); ("null_order", (CD false true m4 None)); ("order", (CD true false m4 (Some w13))); ("right", (CD true false m3 None))].
Definition e375 : entry := En N_FunctionChain (Some true) (Some w64) k40 c374.
Definition d376 : desc := [e369; e192; e194; e371; e373; e375; e221; e205; e207].
Definition c377 : list (string * cdesc) := [("left", (CD true false m3 None)); ("right", (CD true false m3 None)); ("rparen", (CD true false m6 None))].
Definition e378 : entry := En N_AccessOperator (Some true) (Some w1) k2 c377.
Definition c379 : list (string * cdesc) := [("exprs", (CD false true m3 None)); ("rparen", (CD true false m6 None)); ("type", (CD true false m25 (Some w26)))].
Definition e380 : entry := En N_ArrayLiteral (Some true) None k24 c379.
Definition c381 : list (string * cdesc) := [("except", (CD true false m30 (Some w31))); ("replace", (CD true false m30 (Some w32)))].
Definition e382 : entry := En N_Asterisk (Some true) None k29 c381.
Definition c383 : list (string * cdesc) := [("and", (CD true false m4 None)); ("left", (CD true false m10 None)); ("not", (CD true false m4 (Some w36))); ("right_max", (CD true false m3 None)); ("right_min", (CD true false m3 None))].
Definition e384 : entry := En N_BetweenOperator (Some true) (Some w0) k35 c383.
Definition e385 : entry := En N_BinaryOperator (Some true) (Some w39) k40 c151.
Definition e386 : entry := En N_BooleanLiteral (Some true) None k29 c180.
Definition c387 : list (string * cdesc) := [("args", (CD false true m48 None)); ("distinct", (CD true false m4 (Some w49))); ("func", (CD true false m3 None)); ("having", (CD true false m50 (Some w51))); ("ignore_nulls", (CD false true m4 None)); ("limit", (CD true false m52 (Some w53))); ("orderby", (CD true false m54 (Some w55))); ("over", (CD true false m56 (Some w57))); ("rparen", (CD true false m6 None))].
Definition e388 : entry := En N_CallingFunction (Some true) (Some w46) k47 c387.
Definition c389 : list (string * cdesc) := [("arms", (CD false true m61 None)); ("end", (CD true false m4 None)); ("expr", (CD true false m3 None))].
Definition e390 : entry := En N_CaseExpr (Some true) None k60 c389.
Definition c391 : list (string * cdesc) := [("left", (CD true false m3 None)); ("right", (CD true false m197 None))].
Definition e392 : entry := En N_DotOperator (Some true) (Some w64) k40 c391.
Definition c393 : list (string * cdesc) := [("rparen", (CD true false m6 (Some w69)))].
Definition e394 : entry := En N_EmptyStruct (Some true) None k68 c393.
Definition c395 : list (string * cdesc) := [("expr", (CD true false m74 None)); ("semicolon", (CD true false m6 (Some w76))); ("with", (CD true false m77 (Some w21)))].
Definition e396 : entry := En N_FromStatement (Some true) (Some w72) k258 c395.
Definition c397 : list (string * cdesc) := [("left", (CD true false m3 None)); ("right", (CD true false m3 None))].
Definition e398 : entry := En N_FunctionChain (Some true) (Some w64) k40 c397.
Definition c399 : list (string * cdesc) := [("expr", (CD true false m3 None)); ("rparen", (CD true false m6 None))].
Definition e400 : entry := En N_GroupedExpr (Some true) None k82 c399.
Definition c401 : list (string * cdesc) := [("limit", (CD true false m87 (Some w53))); ("orderby", (CD true false m54 (Some w55))); ("rparen", (CD true false m6 None)); ("stmt", (CD true false m88 None)); ("with", (CD true false m77 (Some w21)))].
Definition e402 : entry := En N_GroupedStatement (Some true) None k86 c401.
Definition e403 : entry := En N_Identifier (Some true) None k29 c180.
Definition c404 : list (string * cdesc) := [("left", (CD true false m10 None)); ("not", (CD true false m4 (Some w36))); ("right", (CD true false m94 None))].
Definition e405 : entry := En N_InOperator (Some true) (Some w93) k40 c404.
Definition c406 : list (string * cdesc) := [("date_part", (CD true false m4 None)); ("expr", (CD true false m3 None)); ("to", (CD true false m4 (Some w98))); ("to_date_part", (CD true false m4 None))].
Definition e407 : entry := En N_IntervalLiteral (Some true) None k97 c406.
Definition c408 : list (string * cdesc) := [("distinct", (CD true false m4 (Some w49))); ("from", (CD true false m4 None)); ("left", (CD true false m10 None)); ("not", (CD true false m4 (Some w36))); ("right", (CD true false m3 None))].
Definition e409 : entry := En N_IsDistinctFromOperator (Some true) (Some w101) k102 c408.
Definition e410 : entry := En N_NullLiteral (Some true) None k29 c180.
Definition e411 : entry := En N_NumericLiteral (Some true) None k29 c180.
Definition e412 : entry := En N_Parameter (Some true) None k29 c180.
Definition c413 : list (string * cdesc) := [("left", (CD true false m88 None)); ("right", (CD true false m112 None)); ("semicolon", (CD true false m6 (Some w76))); ("with", (CD true false m77 (Some w21)))].
Definition e414 : entry := En N_PipeStatement (Some true) (Some w111) k40 c413.
Definition c415 : list (string * cdesc) := [("type", (CD true false m25 (Some w116)))].
Definition e416 : entry := En N_RangeLiteral (Some true) None k115 c415.
Definition c417 : list (string * cdesc) := [("as_struct_or_value", (CD false true m4 None)); ("differential_privacy", (CD true false m120 (Some w21))); ("distinct_or_all", (CD true false m4 (Some w121))); ("exprs", (CD false true m3 None)); ("from", (CD true false m52 (Some w72))); ("groupby", (CD true false m122 (Some w123))); ("having", (CD true false m52 (Some w51))); ("limit", (CD true false m87 (Some w53))); ("orderby", (CD true false m54 (Some w55))); ("qualify", (CD true false m52 (Some w124))); ("where", (CD true false m52 (Some w125))); ("window", (CD true false m126 (Some w127))); ("with", (CD true false m77 (Some w21)))].
Definition e418 : entry := En N_SelectStatement (Some true) (Some w280) k119 c417.
Definition c419 : list (string * cdesc) := [("by", (CD true false m50 (Some w131))); ("corresponding", (CD true false m132 (Some w133))); ("distinct_or_all", (CD true false m4 None)); ("left", (CD true false m134 None)); ("limit", (CD true false m87 (Some w53))); ("method", (CD true false m132 (Some w135))); ("orderby", (CD true false m54 (Some w55))); ("right", (CD true false m88 None)); ("with", (CD true false m77 (Some w21)))].
Definition e420 : entry := En N_SetOperator (Some true) None k130 c419.
Definition e421 : entry := En N_StringLiteral (Some true) None k29 c180.
Definition c422 : list (string * cdesc) := [("exprs", (CD false true m3 None)); ("rparen", (CD true false m6 None)); ("type", (CD true false m25 (Some w139)))].
Definition e423 : entry := En N_StructLiteral (Some true) None k24 c422.
Definition e424 : entry := En N_Template (Some true) None k29 c180.
Definition c425 : list (string * cdesc) := [("right", (CD true false m10 None))].
Definition e426 : entry := En N_UnaryOperator (Some true) None k143 c425.
Definition e427 : entry := En N_Unknown (Some true) None k29 c180.
Definition d428 : desc := [e378; e380; e382; e384; e385; e386; e388; e390; e392; e394; e396; e398; e400; e402; e403; e405; e407; e409; e410; e411; e412; e414; e416; e418; e420; e421; e423; e424; e426; e427].
Definition c429 : list (string * cdesc) := [("alias", (CD true false m3 None)); ("as", (CD true false m4 (Some w5))); ("left", (CD true false m3 None)); ("right", (CD true false m3 None)); ("rparen", (CD true false m6 None))].
Definition e430 : entry := En N_AccessOperator (Some true) (Some w1) k2 c429.
Definition c431 : list (string * cdesc) := [("alias", (CD true false m3 None)); ("as", (CD true false m4 (Some w5))); ("exprs", (CD false true m3 None)); ("rparen", (CD true false m6 None)); ("type", (CD true false m25 (Some w26)))].
Definition e432 : entry := En N_ArrayLiteral (Some true) None k24 c431.
Definition c433 : list (string * cdesc) := [("alias", (CD true false m3 None)); ("as", (CD true false m4 (Some w5))); ("except", (CD true false m30 (Some w31))); ("replace", (CD true false m30 (Some w32)))].
Definition e434 : entry := En N_Asterisk (Some true) None k29 c433.
Definition c435 : list (string * cdesc) := [("alias", (CD true false m3 None)); ("and", (CD true false m4 None)); ("as", (CD true false m4 (Some w5))); ("left", (CD true false m10 None)); ("not", (CD true false m4 (Some w36))); ("right_max", (CD true false m3 None)); ("right_min", (CD true false m3 None))].
Definition e436 : entry := En N_BetweenOperator (Some true) (Some w0) k35 c435.
Definition c437 : list (string * cdesc) := [("alias", (CD true false m3 None)); ("as", (CD true false m4 (Some w5))); ("left", (CD true false m10 None)); ("not", (CD true false m4 (Some w36))); ("quantifier", (CD true false m4 (Some w41))); ("right", (CD true false m3 None))].
Definition e438 : entry := En N_BinaryOperator (Some true) (Some w39) k40 c437.
Definition c439 : list (string * cdesc) := [("alias", (CD true false m3 None)); ("as", (CD true false m4 (Some w5)))].
Definition e440 : entry := En N_BooleanLiteral (Some true) None k29 c439.
Definition c441 : list (string * cdesc) := [("alias", (CD true false m3 None)); ("args", (CD false true m48 None)); ("as", (CD true false m4 (Some w5))); ("distinct", (CD true false m4 (Some w49))); ("func", (CD true false m3 None)); ("having", (CD true false m50 (Some w51))); ("ignore_nulls", (CD false true m4 None)); ("limit", (CD true false m52 (Some w53))); ("orderby", (CD true false m54 (Some w55))); ("over", (CD true false m56 (Some w57))); ("rparen", (CD true false m6 None))].
Definition e442 : entry := En N_CallingFunction (Some true) (Some w46) k47 c441.
Definition c443 : list (string * cdesc) := [("alias", (CD true false m3 None)); ("arms", (CD false true m61 None)); ("as", (CD true false m4 (Some w5))); ("end", (CD true false m4 None)); ("expr", (CD true false m3 None))].
Definition e444 : entry := En N_CaseExpr (Some true) None k60 c443.
Definition c445 : list (string * cdesc) := [("alias", (CD true false m3 None)); ("as", (CD true false m4 (Some w5))); ("left", (CD true false m3 None)); ("right", (CD true false m197 None))].
Definition e446 : entry := En N_DotOperator (Some true) (Some w64) k40 c445.
Definition c447 : list (string * cdesc) := [("alias", (CD true false m3 None)); ("as", (CD true false m4 (Some w5))); ("rparen", (CD true false m6 (Some w69)))].
Definition e448 : entry := En N_EmptyStruct (Some true) None k68 c447.
Definition c449 : list (string * cdesc) := [("alias", (CD true false m3 None)); ("as", (CD true false m4 (Some w5))); ("expr", (CD true false m74 None)); ("semicolon", (CD true false m6 (Some w76))); ("with", (CD true false m77 (Some w21)))].
Definition e450 : entry := En N_FromStatement (Some true) (Some w72) k258 c449.
Definition c451 : list (string * cdesc) := [("alias", (CD true false m3 None)); ("as", (CD true false m4 (Some w5))); ("left", (CD true false m3 None)); ("right", (CD true false m3 None))].
Definition e452 : entry := En N_FunctionChain (Some true) (Some w64) k40 c451.
Definition c453 : list (string * cdesc) := [("alias", (CD true false m3 None)); ("as", (CD true false m4 (Some w5))); ("expr", (CD true false m3 None)); ("rparen", (CD true false m6 None))].
Definition e454 : entry := En N_GroupedExpr (Some true) None k82 c453.
Definition c455 : list (string * cdesc) := [("alias", (CD true false m3 None)); ("as", (CD true false m4 (Some w5))); ("limit", (CD true false m87 (Some w53))); ("orderby", (CD true false m54 (Some w55))); ("rparen", (CD true false m6 None)); ("stmt", (CD true false m88 None)); ("with", (CD true false m77 (Some w21)))].
Definition e456 : entry := En N_GroupedStatement (Some true) None k86 c455.
Definition e457 : entry := En N_Identifier (Some true) None k29 c439.
Definition c458 : list (string * cdesc) := [("alias", (CD true false m3 None)); ("as", (CD true false m4 (Some w5))); ("left", (CD true false m10 None)); ("not", (CD true false m4 (Some w36))); ("right", (CD true false m94 None))].
Definition e459 : entry := En N_InOperator (Some true) (Some w93) k40 c458.
Definition c460 : list (string * cdesc) := [("alias", (CD true false m3 None)); ("as", (CD true false m4 (Some w5))); ("date_part", (CD true false m4 None)); ("expr", (CD true false m3 None)); ("to", (CD true false m4 (Some w98))); ("to_date_part", (CD true false m4 None))].
Definition e461 : entry := En N_IntervalLiteral (Some true) None k97 c460.
Definition c462 : list (string * cdesc) := [("alias", (CD true false m3 None)); ("as", (CD true false m4 (Some w5))); ("distinct", (CD true false m4 (Some w49))); ("from", (CD true false m4 None)); ("left", (CD true false m10 None)); ("not", (CD true false m4 (Some w36))); ("right", (CD true false m3 None))].
Definition e463 : entry := En N_IsDistinctFromOperator (Some true) (Some w101) k102 c462.
Definition e464 : entry := En N_NullLiteral (Some true) None k29 c439.
Definition e465 : entry := En N_NumericLiteral (Some true) None k29 c439.
Definition e466 : entry := En N_Parameter (Some true) None k29 c439.
Definition c467 : list (string * cdesc) := [("alias", (CD true false m3 None)); ("as", (CD true false m4 (Some w5))); ("left", (CD true false m88 None)); ("right", (CD true false m112 None)); ("semicolon", (CD true false m6 (Some w76))); ("with", (CD true false m77 (Some w21)))].
Definition e468 : entry := En N_PipeStatement (Some true) (Some w111) k40 c467.
Definition c469 : list (string * cdesc) := [("alias", (CD true false m3 None)); ("as", (CD true false m4 (Some w5))); ("type", (CD true false m25 (Some w116)))].
Definition e470 : entry := En N_RangeLiteral (Some true) None k115 c469.
Definition c471 : list (string * cdesc) := [("alias", (CD true false m3 None)); ("as", (CD true false m4 (Some w5))); ("as_struct_or_value", (CD false true m4 None)); ("differential_privacy", (CD true false m120 (Some w21))); ("distinct_or_all", (CD true false m4 (Some w121))); ("exprs", (CD false true m3 None)); ("from", (CD true false m52 (Some w72))); ("groupby", (CD true false m122 (Some w123))); ("having", (CD true false m52 (Some w51))); ("limit", (CD true false m87 (Some w53))); ("orderby", (CD true false m54 (Some w55))); ("qualify", (CD true false m52 (Some w124))); ("where", (CD true false m52 (Some w125))); ("window", (CD true false m126 (Some w127))); ("with", (CD true false m77 (Some w21)))].
Definition e472 : entry := En N_SelectStatement (Some true) (Some w280) k119 c471.
Definition c473 : list (string * cdesc) := [("alias", (CD true false m3 None)); ("as", (CD true false m4 (Some w5))); ("by", (CD true false m50 (Some w131))); ("corresponding", (CD true false m132 (Some w133))); ("distinct_or_all", (CD true false m4 None)); ("left", (CD true false m134 None)); ("limit", (CD true false m87 (Some w53))); ("method", (CD true false m132 (Some w135))); ("orderby", (CD true false m54 (Some w55))); ("right", (CD true false m88 None)); ("with", (CD true false m77 (Some w21)))].
Definition e474 : entry := En N_SetOperator (Some true) None k130 c473.
Definition e475 : entry := En N_StringLiteral (Some true) None k29 c439.
Definition c476 : list (string * cdesc) := [("alias", (CD true false m3 None)); ("as", (CD true false m4 (Some w5))); ("exprs", (CD false true m3 None)); ("rparen", (CD true false m6 None)); ("type", (CD true false m25 (Some w139)))].
Definition e477 : entry := En N_StructLiteral (Some true) None k24 c476.
Definition e478 : entry := En N_Template (Some true) None k29 c439.
Definition c479 : list (string * cdesc) := [("alias", (CD true false m3 None)); ("as", (CD true false m4 (Some w5))); ("right", (CD true false m10 None))].
Definition e480 : entry := En N_UnaryOperator (Some true) None k143 c479.
Definition e481 : entry := En N_Unknown (Some true) None k29 c439.
Definition d482 : desc := [e430; e432; e434; e436; e438; e440; e442; e444; e446; e448; e450; e452; e454; e456; e457; e459; e461; e463; e464; e465; e466; e468; e470; e472; e474; e475; e477; e478; e480; e481].
Definition c483 : list (string * cdesc) := [("exprs", (CD false true m3 None)); ("rparen", (CD true false m6 None))].
Definition e484 : entry := En N_GroupedExprs (Some true) (Some w46) k68 c483.
Definition d485 : desc := [e484].
Definition e486 : entry := En N_GroupedExprs (Some true) None k68 c483.
Definition d487 : desc := [e486].
Definition m488 : N := 1361129467683753853853498429727341281280%N.
Definition w489 : list string := [")"; ">"].
Definition c490 : list (string * cdesc) := [("declarations", (CD false true m488 None)); ("rparen", (CD true false m6 (Some w489)))].
Definition e491 : entry := En N_GroupedTypeDeclarationOrConstraints (Some true) (Some w46) k68 c490.
Definition d492 : desc := [e491].
Definition e493 : entry := En N_GroupedTypeDeclarationOrConstraints (Some true) None k68 c490.
Definition d494 : desc := [e493].
Definition w495 : list string := ["VIEW"].
Definition e496 : entry := En N_Identifier (Some true) (Some w495) k29 c180.
Definition c497 : list (string * cdesc) := [("trailing_idents", (CD false true m75 None))].
Definition e498 : entry := En N_MultiTokenIdentifier (Some true) (Some w495) k105 c497.
Definition d499 : desc := [e496; e498].
Definition w500 : list string := ["PROCEDURE"].
Definition e501 : entry := En N_Identifier (Some true) (Some w500) k29 c180.
Definition e502 : entry := En N_MultiTokenIdentifier (Some true) (Some w500) k105 c497.
Definition d503 : desc := [e501; e502].
Definition w504 : list string := ["MODEL"].
Definition e505 : entry := En N_Identifier (Some true) (Some w504) k29 c180.
Definition e506 : entry := En N_MultiTokenIdentifier (Some true) (Some w504) k105 c497.
Definition d507 : desc := [e505; e506].
Definition w508 : list string := ["SCHEMA"].
Definition e509 : entry := En N_Identifier (Some true) (Some w508) k29 c180.
Definition e510 : entry := En N_MultiTokenIdentifier (Some true) (Some w508) k105 c497.
Definition d511 : desc := [e509; e510].
Definition w512 : list string := ["TABLE"].
Definition e513 : entry := En N_Identifier (Some true) (Some w512) k29 c180.
Definition e514 : entry := En N_MultiTokenIdentifier (Some true) (Some w512) k105 c497.
Definition d515 : desc := [e513; e514].
Definition w516 : list string := ["PROJECT"].
Definition e517 : entry := En N_Identifier (Some true) (Some w516) k29 c180.
Definition e518 : entry := En N_MultiTokenIdentifier (Some true) (Some w516) k105 c497.
Definition d519 : desc := [e517; e518].
Definition w520 : list string := ["BI_CAPACITY"].
Definition e521 : entry := En N_Identifier (Some true) (Some w520) k29 c180.
Definition e522 : entry := En N_MultiTokenIdentifier (Some true) (Some w520) k105 c497.
Definition d523 : desc := [e521; e522].
Definition d524 : desc := [e403].
Definition e525 : entry := En N_MultiTokenIdentifier (Some true) None k105 c497.
Definition d526 : desc := [e403; e525].
Definition w527 : list string := ["CAPACITY"; "RESERVATION"].
Definition e528 : entry := En N_Identifier (Some true) (Some w527) k29 c180.
Definition e529 : entry := En N_MultiTokenIdentifier (Some true) (Some w527) k105 c497.
Definition d530 : desc := [e528; e529].
Definition w531 : list string := ["ASSIGNMENT"; "CAPACITY"; "RESERVATION"].
Definition e532 : entry := En N_Identifier (Some true) (Some w531) k29 c180.
Definition e533 : entry := En N_MultiTokenIdentifier (Some true) (Some w531) k105 c497.
Definition d534 : desc := [e532; e533].
Definition w535 : list string := ["."; "VIEW"].
Definition m536 : N := 39614383488587072454065651712%N.
Definition c537 : list (string * cdesc) := [("left", (CD true false m166 (Some w535))); ("right", (CD true false m536 None))].
Definition e538 : entry := En N_DotOperator (Some true) (Some w64) k40 c537.
Definition d539 : desc := [e538; e496; e498].
Definition w540 : list string := ["."; "PROCEDURE"].
Definition c541 : list (string * cdesc) := [("left", (CD true false m166 (Some w540))); ("right", (CD true false m536 None))].
Definition e542 : entry := En N_DotOperator (Some true) (Some w64) k40 c541.
Definition d543 : desc := [e542; e501; e502].
Definition w544 : list string := ["."; "MODEL"].
Definition c545 : list (string * cdesc) := [("left", (CD true false m166 (Some w544))); ("right", (CD true false m536 None))].
Definition e546 : entry := En N_DotOperator (Some true) (Some w64) k40 c545.
Definition d547 : desc := [e546; e505; e506].
Definition w548 : list string := ["."; "SCHEMA"].
Definition c549 : list (string * cdesc) := [("left", (CD true false m166 (Some w548))); ("right", (CD true false m536 None))].
Definition e550 : entry := En N_DotOperator (Some true) (Some w64) k40 c549.
Definition d551 : desc := [e550; e509; e510].
Definition w552 : list string := ["."; "TABLE"].
Definition c553 : list (string * cdesc) := [("left", (CD true false m166 (Some w552))); ("right", (CD true false m536 None))].
Definition e554 : entry := En N_DotOperator (Some true) (Some w64) k40 c553.
Definition d555 : desc := [e554; e513; e514].
Definition w556 : list string := ["."; "PROJECT"].
Definition c557 : list (string * cdesc) := [("left", (CD true false m166 (Some w556))); ("right", (CD true false m536 None))].
Definition e558 : entry := En N_DotOperator (Some true) (Some w64) k40 c557.
Definition d559 : desc := [e558; e517; e518].
Definition w560 : list string := ["."; "BI_CAPACITY"].
Definition c561 : list (string * cdesc) := [("left", (CD true false m166 (Some w560))); ("right", (CD true false m536 None))].
Definition e562 : entry := En N_DotOperator (Some true) (Some w64) k40 c561.
Definition d563 : desc := [e562; e521; e522].
Definition c564 : list (string * cdesc) := [("left", (CD true false m166 None)); ("right", (CD true false m536 None))].
Definition e565 : entry := En N_DotOperator (Some true) (Some w64) k40 c564.
Definition d566 : desc := [e565; e403; e525].
Definition w567 : list string := ["."; "CAPACITY"; "RESERVATION"].
Definition c568 : list (string * cdesc) := [("left", (CD true false m166 (Some w567))); ("right", (CD true false m536 None))].
Definition e569 : entry := En N_DotOperator (Some true) (Some w64) k40 c568.
Definition d570 : desc := [e569; e528; e529].
Definition w571 : list string := ["."; "ASSIGNMENT"; "CAPACITY"; "RESERVATION"].
Definition c572 : list (string * cdesc) := [("left", (CD true false m166 (Some w571))); ("right", (CD true false m536 None))].
Definition e573 : entry := En N_DotOperator (Some true) (Some w64) k40 c572.
Definition d574 : desc := [e573; e532; e533].
Definition c575 : list (string * cdesc) := [("left", (CD true false m10 None)); ("right", (CD true false m94 None))].
Definition e576 : entry := En N_InOperator (Some true) (Some w93) k40 c575.
Definition d577 : desc := [e576].
Definition k578 : list string := ["distinct"; "from"; "left"; "not"; "right"].
Definition e579 : entry := En N_IsDistinctFromOperator (Some true) (Some w101) k578 c408.
Definition d580 : desc := [e579].
Definition c581 : list (string * cdesc) := [("distinct", (CD true false m4 (Some w49))); ("from", (CD true false m4 None)); ("left", (CD true false m10 None)); ("right", (CD true false m3 None))].
Definition e582 : entry := En N_IsDistinctFromOperator (Some true) (Some w101) k102 c581.
Definition d583 : desc := [e582].
Definition w584 : list string := ["OPTIONS"].
Definition k585 : list string := ["group"].
Definition c586 : list (string * cdesc) := [("group", (CD true false m163 None))].
Definition e587 : entry := En N_KeywordWithGroupedXXX (Some true) (Some w584) k585 c586.
Definition d588 : desc := [e587].
Definition w589 : list string := ["STORING"].
Definition e590 : entry := En N_KeywordWithGroupedXXX (Some true) (Some w589) k585 c586.
Definition d591 : desc := [e590].
Definition w592 : list string := ["TRANSFORM"].
Definition e593 : entry := En N_KeywordWithGroupedXXX (Some true) (Some w592) k585 c586.
Definition d594 : desc := [e593].
Definition e595 : entry := En N_KeywordWithGroupedXXX (Some true) None k585 c586.
Definition d596 : desc := [e595].
Definition w597 : list string := ["LOOP"].
Definition k598 : list string := ["stmts"].
Definition m599 : N := 1753645817269193565344071904506675595411184%N.
Definition c600 : list (string * cdesc) := [("stmts", (CD false true m599 None))].
Definition e601 : entry := En N_KeywordWithStatements (Some true) (Some w597) k598 c600.
Definition d602 : desc := [e601].
Definition w603 : list string := ["END"].
Definition w604 : list string := ["REPEAT"].
Definition e605 : entry := En N_KeywordWithStatements (Some true) (Some w604) k598 c600.
Definition d606 : desc := [e605].
Definition w607 : list string := ["UNTIL"].
Definition w608 : list string := ["ELSE"].
Definition e609 : entry := En N_KeywordWithStatements (Some true) (Some w608) k598 c600.
Definition d610 : desc := [e609].
Definition e611 : entry := En N_KeywordWithStatements (Some true) None k598 c600.
Definition d612 : desc := [e611].
Definition w613 : list string := ["ELSE"; "ELSEIF"; "END"].
Definition w614 : list string := ["OR"].
Definition w615 : list string := ["FUNCTION"].
Definition w616 : list string := ["ROW"].
Definition w617 : list string := ["DROP"].
Definition w618 : list string := ["DEFAULT"].
Definition w619 : list string := ["SEARCH"; "VECTOR"].
Definition w620 : list string := ["IF"].
Definition w621 : list string := ["DATA"].
Definition w622 : list string := ["ALL"].
Definition w623 : list string := ["PARTITION"].
Definition w624 : list string := ["GROUPING"].
Definition w625 : list string := ["DETERMINISTIC"].
Definition w626 : list string := ["EXCLUDE"; "INCLUDE"].
Definition w627 : list string := ["CUBE"; "ROLLUP"].
Definition w628 : list string := ["EXCEPT"; "FULL"; "INNER"; "INTERSECT"; "LEFT"; "OUTER"; "UNION"].
Definition d629 : desc := [e90; e129; e137].
Definition c630 : list (string * cdesc) := [("by", (CD true false m50 (Some w131))); ("corresponding", (CD true false m132 (Some w133))); ("distinct_or_all", (CD true false m4 None)); ("left", (CD true false m134 None)); ("method", (CD true false m132 (Some w135))); ("right", (CD true false m88 None))].
Definition e631 : entry := En N_SetOperator (Some true) None k130 c630.
Definition d632 : desc := [e631].
Definition w633 : list string := ["ALTER"].
Definition k634 : list string := ["ident"; "options"; "set"; "what"].
Definition c635 : list (string * cdesc) := [("ident", (CD true false m166 None)); ("options", (CD true false m30 None)); ("semicolon", (CD true false m6 (Some w76))); ("set", (CD true false m4 None)); ("what", (CD true false m4 None))].
Definition e636 : entry := En N_AlterBICapacityStatement (Some true) (Some w633) k634 c635.
Definition k637 : list string := ["colon"; "ident"; "leading_label"; "options"; "set"; "what"].
Definition c638 : list (string * cdesc) := [("colon", (CD true false m6 None)); ("ident", (CD true false m166 None)); ("leading_label", (CD true false m75 None)); ("options", (CD true false m30 None)); ("semicolon", (CD true false m6 (Some w76))); ("set", (CD true false m4 None)); ("trailing_label", (CD true false m75 None)); ("what", (CD true false m4 None))].
Definition e639 : entry := En N_AlterBICapacityStatement (Some true) (Some w633) k637 c638.
Definition k640 : list string := ["ident"; "what"].
Definition w641 : list string := ["SET"].
Definition c642 : list (string * cdesc) := [("data_type", (CD false true m4 None)); ("default", (CD true false m52 None)); ("drop_default", (CD false true m4 None)); ("drop_not_null", (CD false true m4 None)); ("ident", (CD true false m75 None)); ("if_exists", (CD false true m4 None)); ("options", (CD true false m30 (Some w584))); ("semicolon", (CD true false m6 (Some w76))); ("set", (CD true false m4 (Some w641))); ("type", (CD true false m25 None)); ("what", (CD true false m4 None))].
Definition e643 : entry := En N_AlterColumnStatement (Some true) (Some w633) k640 c642.
Definition k644 : list string := ["colon"; "ident"; "leading_label"; "what"].
Definition c645 : list (string * cdesc) := [("colon", (CD true false m6 None)); ("data_type", (CD false true m4 None)); ("default", (CD true false m52 None)); ("drop_default", (CD false true m4 None)); ("drop_not_null", (CD false true m4 None)); ("ident", (CD true false m75 None)); ("if_exists", (CD false true m4 None)); ("leading_label", (CD true false m75 None)); ("options", (CD true false m30 (Some w584))); ("semicolon", (CD true false m6 (Some w76))); ("set", (CD true false m4 (Some w641))); ("trailing_label", (CD true false m75 None)); ("type", (CD true false m25 None)); ("what", (CD true false m4 None))].
Definition e646 : entry := En N_AlterColumnStatement (Some true) (Some w633) k644 c645.
Definition c647 : list (string * cdesc) := [("ident", (CD true false m166 None)); ("if_exists", (CD false true m4 None)); ("options", (CD true false m30 None)); ("semicolon", (CD true false m6 (Some w76))); ("set", (CD true false m4 None)); ("what", (CD true false m4 None))].
Definition e648 : entry := En N_AlterModelStatement (Some true) (Some w633) k634 c647.
Definition c649 : list (string * cdesc) := [("colon", (CD true false m6 None)); ("ident", (CD true false m166 None)); ("if_exists", (CD false true m4 None)); ("leading_label", (CD true false m75 None)); ("options", (CD true false m30 None)); ("semicolon", (CD true false m6 (Some w76))); ("set", (CD true false m4 None)); ("trailing_label", (CD true false m75 None)); ("what", (CD true false m4 None))].
Definition e650 : entry := En N_AlterModelStatement (Some true) (Some w633) k637 c649.
Definition k651 : list string := ["options"; "set"; "what"].
Definition c652 : list (string * cdesc) := [("options", (CD true false m30 None)); ("semicolon", (CD true false m6 (Some w76))); ("set", (CD true false m4 None)); ("what", (CD true false m4 None))].
Definition e653 : entry := En N_AlterOrganizationStatement (Some true) (Some w633) k651 c652.
Definition k654 : list string := ["colon"; "leading_label"; "options"; "set"; "what"].
Definition c655 : list (string * cdesc) := [("colon", (CD true false m6 None)); ("leading_label", (CD true false m75 None)); ("options", (CD true false m30 None)); ("semicolon", (CD true false m6 (Some w76))); ("set", (CD true false m4 None)); ("trailing_label", (CD true false m75 None)); ("what", (CD true false m4 None))].
Definition e656 : entry := En N_AlterOrganizationStatement (Some true) (Some w633) k654 c655.
Definition e657 : entry := En N_AlterProjectStatement (Some true) (Some w633) k651 c635.
Definition e658 : entry := En N_AlterProjectStatement (Some true) (Some w633) k654 c638.
Definition e659 : entry := En N_AlterReservationStatement (Some true) (Some w633) k634 c635.
Definition e660 : entry := En N_AlterReservationStatement (Some true) (Some w633) k637 c638.
Definition w661 : list string := ["ADD"].
Definition c662 : list (string * cdesc) := [("add", (CD true false m50 (Some w661))); ("default_collate", (CD true false m50 (Some w618))); ("drop", (CD true false m50 (Some w617))); ("ident", (CD true false m166 None)); ("if_exists", (CD false true m4 None)); ("options", (CD true false m30 (Some w584))); ("semicolon", (CD true false m6 (Some w76))); ("set", (CD true false m4 (Some w641))); ("what", (CD true false m4 None))].
Definition e663 : entry := En N_AlterSchemaStatement (Some true) (Some w633) k640 c662.
Definition c664 : list (string * cdesc) := [("add", (CD true false m50 (Some w661))); ("colon", (CD true false m6 None)); ("default_collate", (CD true false m50 (Some w618))); ("drop", (CD true false m50 (Some w617))); ("ident", (CD true false m166 None)); ("if_exists", (CD false true m4 None)); ("leading_label", (CD true false m75 None)); ("options", (CD true false m30 (Some w584))); ("semicolon", (CD true false m6 (Some w76))); ("set", (CD true false m4 (Some w641))); ("trailing_label", (CD true false m75 None)); ("what", (CD true false m4 None))].
Definition e665 : entry := En N_AlterSchemaStatement (Some true) (Some w633) k644 c664.
Definition m666 : N := 2%N.
Definition m667 : N := 4%N.
Definition m668 : N := 16%N.
Definition m669 : N := 256%N.
Definition w670 : list string := ["RENAME"].
Definition m671 : N := 2596148429267413814265248164610048%N.
Definition c672 : list (string * cdesc) := [("add_columns", (CD false true m666 None)); ("add_constraints", (CD false true m667 None)); ("alter_column_stmt", (CD true false m668 (Some w633))); ("default_collate", (CD true false m50 (Some w618))); ("drop_columns", (CD false true m669 None)); ("ident", (CD true false m166 None)); ("if_exists", (CD false true m4 None)); ("options", (CD true false m30 (Some w584))); ("rename", (CD true false m4 (Some w670))); ("rename_columns", (CD false true m671 None)); ("semicolon", (CD true false m6 (Some w76))); ("set", (CD true false m4 (Some w641))); ("to", (CD true false m52 (Some w98))); ("what", (CD true false m4 None))].
Definition e673 : entry := En N_AlterTableStatement (Some true) (Some w633) k640 c672.
Definition c674 : list (string * cdesc) := [("add_columns", (CD false true m666 None)); ("add_constraints", (CD false true m667 None)); ("alter_column_stmt", (CD true false m668 (Some w633))); ("colon", (CD true false m6 None)); ("default_collate", (CD true false m50 (Some w618))); ("drop_columns", (CD false true m669 None)); ("ident", (CD true false m166 None)); ("if_exists", (CD false true m4 None)); ("leading_label", (CD true false m75 None)); ("options", (CD true false m30 (Some w584))); ("rename", (CD true false m4 (Some w670))); ("rename_columns", (CD false true m671 None)); ("semicolon", (CD true false m6 (Some w76))); ("set", (CD true false m4 (Some w641))); ("to", (CD true false m52 (Some w98))); ("trailing_label", (CD true false m75 None)); ("what", (CD true false m4 None))].
Definition e675 : entry := En N_AlterTableStatement (Some true) (Some w633) k644 c674.
Definition k676 : list string := ["ident"; "on"; "operation"; "what"].
Definition c677 : list (string * cdesc) := [("ident", (CD true false m166 None)); ("if_exists", (CD false true m4 None)); ("on", (CD true false m52 None)); ("operation", (CD true false m4 None)); ("semicolon", (CD true false m6 (Some w76))); ("what", (CD true false m50 None))].
Definition e678 : entry := En N_AlterVectorIndexStatement (Some true) (Some w633) k676 c677.
Definition k679 : list string := ["colon"; "ident"; "leading_label"; "on"; "operation"; "what"].
Definition c680 : list (string * cdesc) := [("colon", (CD true false m6 None)); ("ident", (CD true false m166 None)); ("if_exists", (CD false true m4 None)); ("leading_label", (CD true false m75 None)); ("on", (CD true false m52 None)); ("operation", (CD true false m4 None)); ("semicolon", (CD true false m6 (Some w76))); ("trailing_label", (CD true false m75 None)); ("what", (CD true false m50 None))].
Definition e681 : entry := En N_AlterVectorIndexStatement (Some true) (Some w633) k679 c680.
Definition w682 : list string := ["MATERIALIZED"].
Definition c683 : list (string * cdesc) := [("alter_column_stmt", (CD true false m668 (Some w633))); ("ident", (CD true false m166 None)); ("if_exists", (CD false true m4 None)); ("materialized", (CD true false m4 (Some w682))); ("options", (CD true false m30 None)); ("semicolon", (CD true false m6 (Some w76))); ("set", (CD true false m4 None)); ("what", (CD true false m4 None))].
Definition e684 : entry := En N_AlterViewStatement (Some true) (Some w633) k640 c683.
Definition c685 : list (string * cdesc) := [("alter_column_stmt", (CD true false m668 (Some w633))); ("colon", (CD true false m6 None)); ("ident", (CD true false m166 None)); ("if_exists", (CD false true m4 None)); ("leading_label", (CD true false m75 None)); ("materialized", (CD true false m4 (Some w682))); ("options", (CD true false m30 None)); ("semicolon", (CD true false m6 (Some w76))); ("set", (CD true false m4 None)); ("trailing_label", (CD true false m75 None)); ("what", (CD true false m4 None))].
Definition e686 : entry := En N_AlterViewStatement (Some true) (Some w633) k644 c685.
Definition w687 : list string := ["ASSERT"].
Definition c688 : list (string * cdesc) := [("as", (CD true false m4 (Some w5))); ("description", (CD true false m3 None)); ("expr", (CD true false m3 None)); ("semicolon", (CD true false m6 (Some w76)))].
Definition e689 : entry := En N_AssertStatement (Some true) (Some w687) k73 c688.
Definition k690 : list string := ["colon"; "expr"; "leading_label"].
Definition c691 : list (string * cdesc) := [("as", (CD true false m4 (Some w5))); ("colon", (CD true false m6 None)); ("description", (CD true false m3 None)); ("expr", (CD true false m3 None)); ("leading_label", (CD true false m75 None)); ("semicolon", (CD true false m6 (Some w76))); ("trailing_label", (CD true false m75 None))].
Definition e692 : entry := En N_AssertStatement (Some true) (Some w687) k690 c691.
Definition w693 : list string := ["BEGIN"].
Definition k694 : list string := ["end"].
Definition m695 : N := 151115727451828646838272%N.
Definition c696 : list (string * cdesc) := [("end", (CD true false m4 (Some w603))); ("exception_when_error", (CD false true m4 None)); ("semicolon", (CD true false m6 (Some w76))); ("stmts", (CD false true m599 None)); ("then", (CD true false m695 None))].
Definition e697 : entry := En N_BeginStatement (Some true) (Some w693) k694 c696.
Definition k698 : list string := ["colon"; "end"; "leading_label"].
Definition c699 : list (string * cdesc) := [("colon", (CD true false m6 None)); ("end", (CD true false m4 (Some w603))); ("exception_when_error", (CD false true m4 None)); ("leading_label", (CD true false m75 None)); ("semicolon", (CD true false m6 (Some w76))); ("stmts", (CD false true m599 None)); ("then", (CD true false m695 None)); ("trailing_label", (CD true false m75 None))].
Definition e700 : entry := En N_BeginStatement (Some true) (Some w693) k698 c699.
Definition w701 : list string := ["BREAK"; "CONTINUE"; "ITERATE"; "LEAVE"].
Definition c702 : list (string * cdesc) := [("label", (CD true false m75 None)); ("semicolon", (CD true false m6 (Some w76)))].
Definition e703 : entry := En N_BreakContinueStatement (Some true) (Some w701) k29 c702.
Definition k704 : list string := ["colon"; "leading_label"].
Definition c705 : list (string * cdesc) := [("colon", (CD true false m6 None)); ("label", (CD true false m75 None)); ("leading_label", (CD true false m75 None)); ("semicolon", (CD true false m6 (Some w76))); ("trailing_label", (CD true false m75 None))].
Definition e706 : entry := En N_BreakContinueStatement (Some true) (Some w701) k704 c705.
Definition w707 : list string := ["CALL"].
Definition k708 : list string := ["procedure"].
Definition c709 : list (string * cdesc) := [("procedure", (CD true false m3 None)); ("semicolon", (CD true false m6 (Some w76)))].
Definition e710 : entry := En N_CallStatement (Some true) (Some w707) k708 c709.
Definition k711 : list string := ["colon"; "leading_label"; "procedure"].
Definition c712 : list (string * cdesc) := [("colon", (CD true false m6 None)); ("leading_label", (CD true false m75 None)); ("procedure", (CD true false m3 None)); ("semicolon", (CD true false m6 (Some w76))); ("trailing_label", (CD true false m75 None))].
Definition e713 : entry := En N_CallStatement (Some true) (Some w707) k711 c712.
Definition w714 : list string := ["CASE"].
Definition k715 : list string := ["arms"; "end_case"].
Definition m716 : N := 4294967296%N.
Definition c717 : list (string * cdesc) := [("arms", (CD false true m716 None)); ("end_case", (CD false true m4 None)); ("expr", (CD true false m3 None)); ("semicolon", (CD true false m6 (Some w76)))].
Definition e718 : entry := En N_CaseStatement (Some true) (Some w714) k715 c717.
Definition k719 : list string := ["arms"; "colon"; "end_case"; "leading_label"].
Definition c720 : list (string * cdesc) := [("arms", (CD false true m716 None)); ("colon", (CD true false m6 None)); ("end_case", (CD false true m4 None)); ("expr", (CD true false m3 None)); ("leading_label", (CD true false m75 None)); ("semicolon", (CD true false m6 (Some w76))); ("trailing_label", (CD true false m75 None))].
Definition e721 : entry := En N_CaseStatement (Some true) (Some w714) k719 c720.
Definition w722 : list string := ["CREATE"].
Definition k723 : list string := ["group"; "ident"; "what"].
Definition w724 : list string := ["AGGREGATE"].
Definition m725 : N := 118059162071741130342400%N.
Definition m726 : N := 590295810358705651712%N.
Definition w727 : list string := ["REMOTE"].
Definition m728 : N := 18889465931478580854784%N.
Definition w729 : list string := ["RETURNS"].
Definition w730 : list string := ["TEMP"; "TEMPORARY"].
Definition c731 : list (string * cdesc) := [("aggregate", (CD true false m4 (Some w724))); ("as", (CD true false m725 None)); ("connection", (CD true false m50 None)); ("determinism", (CD false true m4 None)); ("group", (CD true false m726 None)); ("ident", (CD true false m166 None)); ("if_not_exists", (CD false true m4 None)); ("language", (CD true false m52 None)); ("options", (CD true false m30 (Some w584))); ("or_replace", (CD false true m4 None)); ("remote", (CD true false m4 (Some w727))); ("returns", (CD true false m728 (Some w729))); ("semicolon", (CD true false m6 (Some w76))); ("table", (CD true false m4 (Some w512))); ("temp", (CD true false m4 (Some w730))); ("what", (CD true false m4 None))].
Definition e732 : entry := En N_CreateFunctionStatement (Some true) (Some w722) k723 c731.
Definition k733 : list string := ["colon"; "group"; "ident"; "leading_label"; "what"].
Definition c734 : list (string * cdesc) := [("aggregate", (CD true false m4 (Some w724))); ("as", (CD true false m725 None)); ("colon", (CD true false m6 None)); ("connection", (CD true false m50 None)); ("determinism", (CD false true m4 None)); ("group", (CD true false m726 None)); ("ident", (CD true false m166 None)); ("if_not_exists", (CD false true m4 None)); ("language", (CD true false m52 None)); ("leading_label", (CD true false m75 None)); ("options", (CD true false m30 (Some w584))); ("or_replace", (CD false true m4 None)); ("remote", (CD true false m4 (Some w727))); ("returns", (CD true false m728 (Some w729))); ("semicolon", (CD true false m6 (Some w76))); ("table", (CD true false m4 (Some w512))); ("temp", (CD true false m4 (Some w730))); ("trailing_label", (CD true false m75 None)); ("what", (CD true false m4 None))].
Definition e735 : entry := En N_CreateFunctionStatement (Some true) (Some w722) k733 c734.
Definition k736 : list string := ["column_group"; "ident"; "on"; "tablename"; "what"].
Definition m737 : N := 55340232221128654848%N.
Definition c738 : list (string * cdesc) := [("column_group", (CD true false m737 None)); ("ident", (CD true false m166 None)); ("if_not_exists", (CD false true m4 None)); ("on", (CD true false m4 None)); ("options", (CD true false m30 (Some w584))); ("or_replace", (CD false true m4 None)); ("partitionby", (CD true false m54 (Some w623))); ("semicolon", (CD true false m6 (Some w76))); ("storing", (CD true false m30 (Some w589))); ("tablename", (CD true false m166 None)); ("what", (CD true false m50 None))].
Definition e739 : entry := En N_CreateIndexStatement (Some true) (Some w722) k736 c738.
Definition k740 : list string := ["colon"; "column_group"; "ident"; "leading_label"; "on"; "tablename"; "what"].
Definition c741 : list (string * cdesc) := [("colon", (CD true false m6 None)); ("column_group", (CD true false m737 None)); ("ident", (CD true false m166 None)); ("if_not_exists", (CD false true m4 None)); ("leading_label", (CD true false m75 None)); ("on", (CD true false m4 None)); ("options", (CD true false m30 (Some w584))); ("or_replace", (CD false true m4 None)); ("partitionby", (CD true false m54 (Some w623))); ("semicolon", (CD true false m6 (Some w76))); ("storing", (CD true false m30 (Some w589))); ("tablename", (CD true false m166 None)); ("trailing_label", (CD true false m75 None)); ("what", (CD true false m50 None))].
Definition e742 : entry := En N_CreateIndexStatement (Some true) (Some w722) k740 c741.
Definition w743 : list string := ["INPUT"].
Definition w744 : list string := ["OUTPUT"].
Definition m745 : N := 75557863725914323419136%N.
Definition c746 : list (string * cdesc) := [("ident", (CD true false m166 None)); ("if_not_exists", (CD false true m4 None)); ("input", (CD true false m30 (Some w743))); ("options", (CD true false m30 (Some w584))); ("or_replace", (CD false true m4 None)); ("output", (CD true false m30 (Some w744))); ("query", (CD true false m745 (Some w5))); ("remote", (CD true false m50 (Some w727))); ("semicolon", (CD true false m6 (Some w76))); ("training_data_custom_holiday", (CD true false m30 (Some w5))); ("transform", (CD true false m30 (Some w592))); ("what", (CD true false m4 None))].
Definition e747 : entry := En N_CreateModelStatement (Some true) (Some w722) k640 c746.
Definition c748 : list (string * cdesc) := [("colon", (CD true false m6 None)); ("ident", (CD true false m166 None)); ("if_not_exists", (CD false true m4 None)); ("input", (CD true false m30 (Some w743))); ("leading_label", (CD true false m75 None)); ("options", (CD true false m30 (Some w584))); ("or_replace", (CD false true m4 None)); ("output", (CD true false m30 (Some w744))); ("query", (CD true false m745 (Some w5))); ("remote", (CD true false m50 (Some w727))); ("semicolon", (CD true false m6 (Some w76))); ("trailing_label", (CD true false m75 None)); ("training_data_custom_holiday", (CD true false m30 (Some w5))); ("transform", (CD true false m30 (Some w592))); ("what", (CD true false m4 None))].
Definition e749 : entry := En N_CreateModelStatement (Some true) (Some w722) k644 c748.
Definition w750 : list string := ["EXTERNAL"].
Definition w751 : list string := ["LANGUAGE"].
Definition m752 : N := 1048576%N.
Definition c753 : list (string * cdesc) := [("as", (CD true false m52 (Some w5))); ("external", (CD true false m50 (Some w750))); ("group", (CD true false m726 None)); ("ident", (CD true false m166 None)); ("if_not_exists", (CD false true m4 None)); ("language", (CD true false m52 (Some w751))); ("options", (CD true false m30 (Some w584))); ("or_replace", (CD false true m4 None)); ("semicolon", (CD true false m6 (Some w76))); ("stmt", (CD true false m752 (Some w693))); ("what", (CD true false m4 None)); ("with_connection", (CD true false m50 (Some w21)))].
Definition e754 : entry := En N_CreateProcedureStatement (Some true) (Some w722) k723 c753.
Definition c755 : list (string * cdesc) := [("as", (CD true false m52 (Some w5))); ("colon", (CD true false m6 None)); ("external", (CD true false m50 (Some w750))); ("group", (CD true false m726 None)); ("ident", (CD true false m166 None)); ("if_not_exists", (CD false true m4 None)); ("language", (CD true false m52 (Some w751))); ("leading_label", (CD true false m75 None)); ("options", (CD true false m30 (Some w584))); ("or_replace", (CD false true m4 None)); ("semicolon", (CD true false m6 (Some w76))); ("stmt", (CD true false m752 (Some w693))); ("trailing_label", (CD true false m75 None)); ("what", (CD true false m4 None)); ("with_connection", (CD true false m50 (Some w21)))].
Definition e756 : entry := En N_CreateProcedureStatement (Some true) (Some w722) k733 c755.
Definition c757 : list (string * cdesc) := [("as", (CD true false m4 (Some w5))); ("ident", (CD true false m166 None)); ("json", (CD true false m4 None)); ("json_string", (CD true false m3 None)); ("options", (CD true false m30 (Some w584))); ("semicolon", (CD true false m6 (Some w76))); ("what", (CD true false m4 None))].
Definition e758 : entry := En N_CreateReservationStatement (Some true) (Some w722) k640 c757.
Definition c759 : list (string * cdesc) := [("as", (CD true false m4 (Some w5))); ("colon", (CD true false m6 None)); ("ident", (CD true false m166 None)); ("json", (CD true false m4 None)); ("json_string", (CD true false m3 None)); ("leading_label", (CD true false m75 None)); ("options", (CD true false m30 (Some w584))); ("semicolon", (CD true false m6 (Some w76))); ("trailing_label", (CD true false m75 None)); ("what", (CD true false m4 None))].
Definition e760 : entry := En N_CreateReservationStatement (Some true) (Some w722) k644 c759.
Definition k761 : list string := ["filter"; "ident"; "on"; "using"; "what"].
Definition w762 : list string := ["GRANT"].
Definition c763 : list (string * cdesc) := [("filter", (CD true false m4 None)); ("grant", (CD true false m4 (Some w762))); ("ident", (CD true false m166 None)); ("if_not_exists", (CD false true m4 None)); ("on", (CD true false m52 None)); ("or_replace", (CD false true m4 None)); ("semicolon", (CD true false m6 (Some w76))); ("to", (CD true false m30 None)); ("using", (CD true false m52 None)); ("what", (CD false true m4 None))].
Definition e764 : entry := En N_CreateRowAccessPolicyStatement (Some true) (Some w722) k761 c763.
Definition k765 : list string := ["colon"; "filter"; "ident"; "leading_label"; "on"; "using"; "what"].
Definition c766 : list (string * cdesc) := [("colon", (CD true false m6 None)); ("filter", (CD true false m4 None)); ("grant", (CD true false m4 (Some w762))); ("ident", (CD true false m166 None)); ("if_not_exists", (CD false true m4 None)); ("leading_label", (CD true false m75 None)); ("on", (CD true false m52 None)); ("or_replace", (CD false true m4 None)); ("semicolon", (CD true false m6 (Some w76))); ("to", (CD true false m30 None)); ("trailing_label", (CD true false m75 None)); ("using", (CD true false m52 None)); ("what", (CD false true m4 None))].
Definition e767 : entry := En N_CreateRowAccessPolicyStatement (Some true) (Some w722) k765 c766.
Definition c768 : list (string * cdesc) := [("default_collate", (CD true false m50 (Some w618))); ("external", (CD true false m4 (Some w750))); ("ident", (CD true false m166 None)); ("if_not_exists", (CD false true m4 None)); ("options", (CD true false m30 (Some w584))); ("semicolon", (CD true false m6 (Some w76))); ("what", (CD true false m4 None)); ("with_connection", (CD true false m50 (Some w21)))].
Definition e769 : entry := En N_CreateSchemaStatement (Some true) (Some w722) k640 c768.
Definition c770 : list (string * cdesc) := [("colon", (CD true false m6 None)); ("default_collate", (CD true false m50 (Some w618))); ("external", (CD true false m4 (Some w750))); ("ident", (CD true false m166 None)); ("if_not_exists", (CD false true m4 None)); ("leading_label", (CD true false m75 None)); ("options", (CD true false m30 (Some w584))); ("semicolon", (CD true false m6 (Some w76))); ("trailing_label", (CD true false m75 None)); ("what", (CD true false m4 None)); ("with_connection", (CD true false m50 (Some w21)))].
Definition e771 : entry := En N_CreateSchemaStatement (Some true) (Some w722) k644 c770.
Definition w772 : list string := ["CLONE"].
Definition w773 : list string := ["CLUSTER"].
Definition w774 : list string := ["COPY"; "LIKE"].
Definition w775 : list string := ["SNAPSHOT"].
Definition m776 : N := 356811923176489970264571492362373784095686656%N.
Definition c777 : list (string * cdesc) := [("as", (CD true false m745 (Some w5))); ("clone", (CD true false m52 (Some w772))); ("clusterby", (CD true false m54 (Some w773))); ("column_schema_group", (CD true false m726 (Some w46))); ("default_collate", (CD true false m50 (Some w618))); ("external", (CD true false m4 (Some w750))); ("ident", (CD true false m166 None)); ("if_not_exists", (CD false true m4 None)); ("like_or_copy", (CD true false m4 (Some w774))); ("options", (CD true false m30 (Some w584))); ("or_replace", (CD false true m4 None)); ("partitionby", (CD true false m54 (Some w623))); ("semicolon", (CD true false m6 (Some w76))); ("snapshot", (CD true false m4 (Some w775))); ("source_table", (CD true false m166 None)); ("temp", (CD true false m4 (Some w730))); ("what", (CD true false m4 None)); ("with_connection", (CD true false m50 (Some w21))); ("with_partition_columns", (CD true false m776 (Some w21)))].
Definition e778 : entry := En N_CreateTableStatement (Some true) (Some w722) k640 c777.
Definition c779 : list (string * cdesc) := [("as", (CD true false m745 (Some w5))); ("clone", (CD true false m52 (Some w772))); ("clusterby", (CD true false m54 (Some w773))); ("colon", (CD true false m6 None)); ("column_schema_group", (CD true false m726 (Some w46))); ("default_collate", (CD true false m50 (Some w618))); ("external", (CD true false m4 (Some w750))); ("ident", (CD true false m166 None)); ("if_not_exists", (CD false true m4 None)); ("leading_label", (CD true false m75 None)); ("like_or_copy", (CD true false m4 (Some w774))); ("options", (CD true false m30 (Some w584))); ("or_replace", (CD false true m4 None)); ("partitionby", (CD true false m54 (Some w623))); ("semicolon", (CD true false m6 (Some w76))); ("snapshot", (CD true false m4 (Some w775))); ("source_table", (CD true false m166 None)); ("temp", (CD true false m4 (Some w730))); ("trailing_label", (CD true false m75 None)); ("what", (CD true false m4 None)); ("with_connection", (CD true false m50 (Some w21))); ("with_partition_columns", (CD true false m776 (Some w21)))].
Definition e780 : entry := En N_CreateTableStatement (Some true) (Some w722) k644 c779.
Definition m781 : N := 77919046967349146025984%N.
Definition m782 : N := 9223372036854775808%N.
Definition c783 : list (string * cdesc) := [("as", (CD true false m781 (Some w5))); ("clusterby", (CD true false m54 (Some w773))); ("column_name_list", (CD true false m782 (Some w46))); ("ident", (CD true false m166 None)); ("if_not_exists", (CD false true m4 None)); ("materialized", (CD true false m4 (Some w682))); ("options", (CD true false m30 (Some w584))); ("or_replace", (CD false true m4 None)); ("partitionby", (CD true false m54 (Some w623))); ("semicolon", (CD true false m6 (Some w76))); ("what", (CD true false m4 None))].
Definition e784 : entry := En N_CreateViewStatement (Some true) (Some w722) k640 c783.
Definition c785 : list (string * cdesc) := [("as", (CD true false m781 (Some w5))); ("clusterby", (CD true false m54 (Some w773))); ("colon", (CD true false m6 None)); ("column_name_list", (CD true false m782 (Some w46))); ("ident", (CD true false m166 None)); ("if_not_exists", (CD false true m4 None)); ("leading_label", (CD true false m75 None)); ("materialized", (CD true false m4 (Some w682))); ("options", (CD true false m30 (Some w584))); ("or_replace", (CD false true m4 None)); ("partitionby", (CD true false m54 (Some w623))); ("semicolon", (CD true false m6 (Some w76))); ("trailing_label", (CD true false m75 None)); ("what", (CD true false m4 None))].
Definition e786 : entry := En N_CreateViewStatement (Some true) (Some w722) k644 c785.
Definition w787 : list string := ["DECLARE"].
Definition k788 : list string := ["idents"].
Definition c789 : list (string * cdesc) := [("default", (CD true false m52 (Some w618))); ("idents", (CD false true m166 None)); ("semicolon", (CD true false m6 (Some w76))); ("variable_type", (CD true false m25 None))].
Definition e790 : entry := En N_DeclareStatement (Some true) (Some w787) k788 c789.
Definition k791 : list string := ["colon"; "idents"; "leading_label"].
Definition c792 : list (string * cdesc) := [("colon", (CD true false m6 None)); ("default", (CD true false m52 (Some w618))); ("idents", (CD false true m166 None)); ("leading_label", (CD true false m75 None)); ("semicolon", (CD true false m6 (Some w76))); ("trailing_label", (CD true false m75 None)); ("variable_type", (CD true false m25 None))].
Definition e793 : entry := En N_DeclareStatement (Some true) (Some w787) k791 c792.
Definition w794 : list string := ["DELETE"].
Definition k795 : list string := ["table_name"; "where"].
Definition c796 : list (string * cdesc) := [("from", (CD true false m4 (Some w72))); ("semicolon", (CD true false m6 (Some w76))); ("table_name", (CD true false m166 None)); ("where", (CD true false m52 None))].
Definition e797 : entry := En N_DeleteStatement (Some true) (Some w794) k795 c796.
Definition k798 : list string := ["colon"; "leading_label"; "table_name"; "where"].
Definition c799 : list (string * cdesc) := [("colon", (CD true false m6 None)); ("from", (CD true false m4 (Some w72))); ("leading_label", (CD true false m75 None)); ("semicolon", (CD true false m6 (Some w76))); ("table_name", (CD true false m166 None)); ("trailing_label", (CD true false m75 None)); ("where", (CD true false m52 None))].
Definition e800 : entry := En N_DeleteStatement (Some true) (Some w794) k798 c799.
Definition k801 : list string := ["on"; "what"].
Definition c802 : list (string * cdesc) := [("ident", (CD true false m166 None)); ("if_exists", (CD false true m4 None)); ("on", (CD true false m52 None)); ("semicolon", (CD true false m6 (Some w76))); ("what", (CD false true m4 None))].
Definition e803 : entry := En N_DropRowAccessPolicyStatement (Some true) (Some w617) k801 c802.
Definition k804 : list string := ["colon"; "leading_label"; "on"; "what"].
Definition c805 : list (string * cdesc) := [("colon", (CD true false m6 None)); ("ident", (CD true false m166 None)); ("if_exists", (CD false true m4 None)); ("leading_label", (CD true false m75 None)); ("on", (CD true false m52 None)); ("semicolon", (CD true false m6 (Some w76))); ("trailing_label", (CD true false m75 None)); ("what", (CD false true m4 None))].
Definition e806 : entry := En N_DropRowAccessPolicyStatement (Some true) (Some w617) k804 c805.
Definition w807 : list string := ["CASCADE"; "RESTRICT"].
Definition w808 : list string := ["ON"].
Definition c809 : list (string * cdesc) := [("cascade_or_restrict", (CD true false m4 (Some w807))); ("external", (CD true false m4 (Some w750))); ("ident", (CD true false m166 None)); ("if_exists", (CD false true m4 None)); ("materialized", (CD true false m4 (Some w682))); ("on", (CD true false m52 (Some w808))); ("semicolon", (CD true false m6 (Some w76))); ("table", (CD true false m4 (Some w512))); ("what", (CD true false m132 None))].
Definition e810 : entry := En N_DropStatement (Some true) (Some w617) k640 c809.
Definition c811 : list (string * cdesc) := [("cascade_or_restrict", (CD true false m4 (Some w807))); ("colon", (CD true false m6 None)); ("external", (CD true false m4 (Some w750))); ("ident", (CD true false m166 None)); ("if_exists", (CD false true m4 None)); ("leading_label", (CD true false m75 None)); ("materialized", (CD true false m4 (Some w682))); ("on", (CD true false m52 (Some w808))); ("semicolon", (CD true false m6 (Some w76))); ("table", (CD true false m4 (Some w512))); ("trailing_label", (CD true false m75 None)); ("what", (CD true false m132 None))].
Definition e812 : entry := En N_DropStatement (Some true) (Some w617) k644 c811.
Definition w813 : list string := ["EXECUTE"].
Definition k814 : list string := ["immediate"; "sql_expr"].
Definition m815 : N := 9444732965739290427392%N.
Definition w816 : list string := ["INTO"].
Definition w817 : list string := ["USING"].
Definition c818 : list (string * cdesc) := [("immediate", (CD true false m4 None)); ("into", (CD true false m815 (Some w816))); ("semicolon", (CD true false m6 (Some w76))); ("sql_expr", (CD true false m3 None)); ("using", (CD true false m815 (Some w817)))].
Definition e819 : entry := En N_ExecuteStatement (Some true) (Some w813) k814 c818.
Definition k820 : list string := ["colon"; "immediate"; "leading_label"; "sql_expr"].
Definition c821 : list (string * cdesc) := [("colon", (CD true false m6 None)); ("immediate", (CD true false m4 None)); ("into", (CD true false m815 (Some w816))); ("leading_label", (CD true false m75 None)); ("semicolon", (CD true false m6 (Some w76))); ("sql_expr", (CD true false m3 None)); ("trailing_label", (CD true false m75 None)); ("using", (CD true false m815 (Some w817)))].
Definition e822 : entry := En N_ExecuteStatement (Some true) (Some w813) k820 c821.
Definition w823 : list string := ["EXPORT"].
Definition k824 : list string := ["as"; "data"; "options"].
Definition c825 : list (string * cdesc) := [("as", (CD true false m745 None)); ("data", (CD true false m4 (Some w621))); ("options", (CD true false m30 None)); ("semicolon", (CD true false m6 (Some w76))); ("with_connection", (CD true false m50 (Some w21)))].
Definition e826 : entry := En N_ExportDataStatement (Some true) (Some w823) k824 c825.
Definition k827 : list string := ["as"; "colon"; "data"; "leading_label"; "options"].
Definition c828 : list (string * cdesc) := [("as", (CD true false m745 None)); ("colon", (CD true false m6 None)); ("data", (CD true false m4 (Some w621))); ("leading_label", (CD true false m75 None)); ("options", (CD true false m30 None)); ("semicolon", (CD true false m6 (Some w76))); ("trailing_label", (CD true false m75 None)); ("with_connection", (CD true false m50 (Some w21)))].
Definition e829 : entry := En N_ExportDataStatement (Some true) (Some w823) k827 c828.
Definition c830 : list (string * cdesc) := [("ident", (CD true false m166 None)); ("options", (CD true false m30 (Some w584))); ("semicolon", (CD true false m6 (Some w76))); ("what", (CD true false m4 None))].
Definition e831 : entry := En N_ExportModelStatement (Some true) (Some w823) k640 c830.
Definition c832 : list (string * cdesc) := [("colon", (CD true false m6 None)); ("ident", (CD true false m166 None)); ("leading_label", (CD true false m75 None)); ("options", (CD true false m30 (Some w584))); ("semicolon", (CD true false m6 (Some w76))); ("trailing_label", (CD true false m75 None)); ("what", (CD true false m4 None))].
Definition e833 : entry := En N_ExportModelStatement (Some true) (Some w823) k644 c832.
Definition k834 : list string := ["do"; "end_for"; "ident"; "in"].
Definition c835 : list (string * cdesc) := [("do", (CD true false m695 None)); ("end_for", (CD false true m4 None)); ("ident", (CD true false m75 None)); ("in", (CD true false m30 None)); ("semicolon", (CD true false m6 (Some w76)))].
Definition e836 : entry := En N_ForStatement (Some true) (Some w9) k834 c835.
Definition k837 : list string := ["colon"; "do"; "end_for"; "ident"; "in"; "leading_label"].
Definition c838 : list (string * cdesc) := [("colon", (CD true false m6 None)); ("do", (CD true false m695 None)); ("end_for", (CD false true m4 None)); ("ident", (CD true false m75 None)); ("in", (CD true false m30 None)); ("leading_label", (CD true false m75 None)); ("semicolon", (CD true false m6 (Some w76))); ("trailing_label", (CD true false m75 None))].
Definition e839 : entry := En N_ForStatement (Some true) (Some w9) k837 c838.
Definition e840 : entry := En N_FromStatement (Some true) (Some w72) k73 c395.
Definition c841 : list (string * cdesc) := [("colon", (CD true false m6 None)); ("expr", (CD true false m74 None)); ("leading_label", (CD true false m75 None)); ("semicolon", (CD true false m6 (Some w76))); ("trailing_label", (CD true false m75 None)); ("with", (CD true false m77 (Some w21)))].
Definition e842 : entry := En N_FromStatement (Some true) (Some w72) k690 c841.
Definition k843 : list string := ["ident"; "on"; "resource_type"; "roles"; "to"].
Definition c844 : list (string * cdesc) := [("ident", (CD true false m166 None)); ("on", (CD true false m4 None)); ("resource_type", (CD true false m4 None)); ("roles", (CD false true m3 None)); ("semicolon", (CD true false m6 (Some w76))); ("to", (CD true false m815 None))].
Definition e845 : entry := En N_GrantStatement (Some true) (Some w762) k843 c844.
Definition k846 : list string := ["colon"; "ident"; "leading_label"; "on"; "resource_type"; "roles"; "to"].
Definition c847 : list (string * cdesc) := [("colon", (CD true false m6 None)); ("ident", (CD true false m166 None)); ("leading_label", (CD true false m75 None)); ("on", (CD true false m4 None)); ("resource_type", (CD true false m4 None)); ("roles", (CD false true m3 None)); ("semicolon", (CD true false m6 (Some w76))); ("to", (CD true false m815 None)); ("trailing_label", (CD true false m75 None))].
Definition e848 : entry := En N_GrantStatement (Some true) (Some w762) k846 c847.
Definition c849 : list (string * cdesc) := [("limit", (CD true false m87 (Some w53))); ("orderby", (CD true false m54 (Some w55))); ("rparen", (CD true false m6 (Some w69))); ("semicolon", (CD true false m6 (Some w76))); ("stmt", (CD true false m88 None)); ("with", (CD true false m77 (Some w21)))].
Definition e850 : entry := En N_GroupedStatement (Some true) (Some w46) k86 c849.
Definition k851 : list string := ["colon"; "leading_label"; "rparen"; "stmt"].
Definition c852 : list (string * cdesc) := [("colon", (CD true false m6 None)); ("leading_label", (CD true false m75 None)); ("limit", (CD true false m87 (Some w53))); ("orderby", (CD true false m54 (Some w55))); ("rparen", (CD true false m6 (Some w69))); ("semicolon", (CD true false m6 (Some w76))); ("stmt", (CD true false m88 None)); ("trailing_label", (CD true false m75 None)); ("with", (CD true false m77 (Some w21)))].
Definition e853 : entry := En N_GroupedStatement (Some true) (Some w46) k851 c852.
Definition k854 : list string := ["condition"; "end_if"; "then"].
Definition m855 : N := 1125899906842624%N.
Definition c856 : list (string * cdesc) := [("condition", (CD true false m3 None)); ("else", (CD true false m695 (Some w608))); ("elseifs", (CD false true m855 None)); ("end_if", (CD false true m4 None)); ("semicolon", (CD true false m6 (Some w76))); ("then", (CD true false m695 None))].
Definition e857 : entry := En N_IfStatement (Some true) (Some w620) k854 c856.
Definition k858 : list string := ["colon"; "condition"; "end_if"; "leading_label"; "then"].
Definition c859 : list (string * cdesc) := [("colon", (CD true false m6 None)); ("condition", (CD true false m3 None)); ("else", (CD true false m695 (Some w608))); ("elseifs", (CD false true m855 None)); ("end_if", (CD false true m4 None)); ("leading_label", (CD true false m75 None)); ("semicolon", (CD true false m6 (Some w76))); ("then", (CD true false m695 None)); ("trailing_label", (CD true false m75 None))].
Definition e860 : entry := En N_IfStatement (Some true) (Some w620) k858 c859.
Definition w861 : list string := ["INSERT"].
Definition k862 : list string := ["input"].
Definition m863 : N := 124655689424053939900579605085421568%N.
Definition c864 : list (string * cdesc) := [("columns", (CD true false m163 (Some w46))); ("input", (CD true false m863 None)); ("into", (CD true false m4 (Some w816))); ("semicolon", (CD true false m6 (Some w76))); ("target_name", (CD true false m166 None))].
Definition e865 : entry := En N_InsertStatement (Some true) (Some w861) k862 c864.
Definition k866 : list string := ["colon"; "input"; "leading_label"].
Definition c867 : list (string * cdesc) := [("colon", (CD true false m6 None)); ("columns", (CD true false m163 (Some w46))); ("input", (CD true false m863 None)); ("into", (CD true false m4 (Some w816))); ("leading_label", (CD true false m75 None)); ("semicolon", (CD true false m6 (Some w76))); ("target_name", (CD true false m166 None)); ("trailing_label", (CD true false m75 None))].
Definition e868 : entry := En N_InsertStatement (Some true) (Some w861) k866 c867.
Definition w869 : list string := ["LOAD"].
Definition k870 : list string := ["data"; "files"; "from"; "from_files"; "ident"; "into"].
Definition w871 : list string := ["CONNECTION"].
Definition m872 : N := 1267650600228229401496703205376%N.
Definition c873 : list (string * cdesc) := [("clusterby", (CD true false m54 (Some w773))); ("column_group", (CD true false m726 (Some w46))); ("connection", (CD true false m4 (Some w871))); ("connection_name", (CD true false m166 None)); ("data", (CD true false m4 None)); ("files", (CD true false m4 None)); ("from", (CD true false m4 None)); ("from_files", (CD true false m163 None)); ("ident", (CD true false m166 None)); ("into", (CD true false m4 None)); ("options", (CD true false m30 (Some w584))); ("overwrite_partitions", (CD true false m872 None)); ("partitionby", (CD true false m54 (Some w623))); ("semicolon", (CD true false m6 (Some w76))); ("with", (CD true false m4 (Some w21))); ("with_partition_columns", (CD true false m776 (Some w21)))].
Definition e874 : entry := En N_LoadStatement (Some true) (Some w869) k870 c873.
Definition k875 : list string := ["colon"; "data"; "files"; "from"; "from_files"; "ident"; "into"; "leading_label"].
Definition c876 : list (string * cdesc) := [("clusterby", (CD true false m54 (Some w773))); ("colon", (CD true false m6 None)); ("column_group", (CD true false m726 (Some w46))); ("connection", (CD true false m4 (Some w871))); ("connection_name", (CD true false m166 None)); ("data", (CD true false m4 None)); ("files", (CD true false m4 None)); ("from", (CD true false m4 None)); ("from_files", (CD true false m163 None)); ("ident", (CD true false m166 None)); ("into", (CD true false m4 None)); ("leading_label", (CD true false m75 None)); ("options", (CD true false m30 (Some w584))); ("overwrite_partitions", (CD true false m872 None)); ("partitionby", (CD true false m54 (Some w623))); ("semicolon", (CD true false m6 (Some w76))); ("trailing_label", (CD true false m75 None)); ("with", (CD true false m4 (Some w21))); ("with_partition_columns", (CD true false m776 (Some w21)))].
Definition e877 : entry := En N_LoadStatement (Some true) (Some w869) k875 c876.
Definition k878 : list string := ["end_loop"; "stmts"].
Definition c879 : list (string * cdesc) := [("end_loop", (CD false true m4 None)); ("semicolon", (CD true false m6 (Some w76))); ("stmts", (CD false true m599 None))].
Definition e880 : entry := En N_LoopStatement (Some true) (Some w597) k878 c879.
Definition k881 : list string := ["colon"; "end_loop"; "leading_label"; "stmts"].
Definition c882 : list (string * cdesc) := [("colon", (CD true false m6 None)); ("end_loop", (CD false true m4 None)); ("leading_label", (CD true false m75 None)); ("semicolon", (CD true false m6 (Some w76))); ("stmts", (CD false true m599 None)); ("trailing_label", (CD true false m75 None))].
Definition e883 : entry := En N_LoopStatement (Some true) (Some w597) k881 c882.
Definition w884 : list string := ["MERGE"].
Definition k885 : list string := ["on"; "table_name"; "using"; "whens"].
Definition m886 : N := 696898287454081973172991196020261297061888%N.
Definition c887 : list (string * cdesc) := [("into", (CD true false m4 (Some w816))); ("on", (CD true false m52 None)); ("semicolon", (CD true false m6 (Some w76))); ("table_name", (CD true false m74 None)); ("using", (CD true false m52 None)); ("whens", (CD false true m886 None))].
Definition e888 : entry := En N_MergeStatement (Some true) (Some w884) k885 c887.
Definition k889 : list string := ["colon"; "leading_label"; "on"; "table_name"; "using"; "whens"].
Definition c890 : list (string * cdesc) := [("colon", (CD true false m6 None)); ("into", (CD true false m4 (Some w816))); ("leading_label", (CD true false m75 None)); ("on", (CD true false m52 None)); ("semicolon", (CD true false m6 (Some w76))); ("table_name", (CD true false m74 None)); ("trailing_label", (CD true false m75 None)); ("using", (CD true false m52 None)); ("whens", (CD false true m886 None))].
Definition e891 : entry := En N_MergeStatement (Some true) (Some w884) k889 c890.
Definition k892 : list string := ["colon"; "leading_label"; "left"; "right"].
Definition c893 : list (string * cdesc) := [("colon", (CD true false m6 None)); ("leading_label", (CD true false m75 None)); ("left", (CD true false m88 None)); ("right", (CD true false m112 None)); ("semicolon", (CD true false m6 (Some w76))); ("trailing_label", (CD true false m75 None)); ("with", (CD true false m77 (Some w21)))].
Definition e894 : entry := En N_PipeStatement (Some true) (Some w111) k892 c893.
Definition w895 : list string := ["RAISE"].
Definition c896 : list (string * cdesc) := [("semicolon", (CD true false m6 (Some w76))); ("using", (CD true false m52 (Some w817)))].
Definition e897 : entry := En N_RaiseStatement (Some true) (Some w895) k29 c896.
Definition c898 : list (string * cdesc) := [("colon", (CD true false m6 None)); ("leading_label", (CD true false m75 None)); ("semicolon", (CD true false m6 (Some w76))); ("trailing_label", (CD true false m75 None)); ("using", (CD true false m52 (Some w817)))].
Definition e899 : entry := En N_RaiseStatement (Some true) (Some w895) k704 c898.
Definition k900 : list string := ["end_repeat"; "stmts"; "until"].
Definition c901 : list (string * cdesc) := [("end_repeat", (CD false true m4 None)); ("semicolon", (CD true false m6 (Some w76))); ("stmts", (CD false true m599 None)); ("until", (CD true false m52 (Some w607)))].
Definition e902 : entry := En N_RepeatStatement (Some true) (Some w604) k900 c901.
Definition k903 : list string := ["colon"; "end_repeat"; "leading_label"; "stmts"; "until"].
Definition c904 : list (string * cdesc) := [("colon", (CD true false m6 None)); ("end_repeat", (CD false true m4 None)); ("leading_label", (CD true false m75 None)); ("semicolon", (CD true false m6 (Some w76))); ("stmts", (CD false true m599 None)); ("trailing_label", (CD true false m75 None)); ("until", (CD true false m52 (Some w607)))].
Definition e905 : entry := En N_RepeatStatement (Some true) (Some w604) k903 c904.
Definition w906 : list string := ["REVOKE"].
Definition k907 : list string := ["from"; "ident"; "on"; "resource_type"; "roles"].
Definition c908 : list (string * cdesc) := [("from", (CD true false m815 None)); ("ident", (CD true false m166 None)); ("on", (CD true false m4 None)); ("resource_type", (CD true false m4 None)); ("roles", (CD false true m3 None)); ("semicolon", (CD true false m6 (Some w76)))].
Definition e909 : entry := En N_RevokeStatement (Some true) (Some w906) k907 c908.
Definition k910 : list string := ["colon"; "from"; "ident"; "leading_label"; "on"; "resource_type"; "roles"].
Definition c911 : list (string * cdesc) := [("colon", (CD true false m6 None)); ("from", (CD true false m815 None)); ("ident", (CD true false m166 None)); ("leading_label", (CD true false m75 None)); ("on", (CD true false m4 None)); ("resource_type", (CD true false m4 None)); ("roles", (CD false true m3 None)); ("semicolon", (CD true false m6 (Some w76))); ("trailing_label", (CD true false m75 None))].
Definition e912 : entry := En N_RevokeStatement (Some true) (Some w906) k910 c911.
Definition c913 : list (string * cdesc) := [("as_struct_or_value", (CD false true m4 None)); ("differential_privacy", (CD true false m120 (Some w21))); ("distinct_or_all", (CD true false m4 (Some w121))); ("exprs", (CD false true m3 None)); ("from", (CD true false m52 (Some w72))); ("groupby", (CD true false m122 (Some w123))); ("having", (CD true false m52 (Some w51))); ("limit", (CD true false m87 (Some w53))); ("orderby", (CD true false m54 (Some w55))); ("qualify", (CD true false m52 (Some w124))); ("semicolon", (CD true false m6 (Some w76))); ("where", (CD true false m52 (Some w125))); ("window", (CD true false m126 (Some w127))); ("with", (CD true false m77 (Some w21)))].
Definition e914 : entry := En N_SelectStatement (Some true) (Some w280) k119 c913.
Definition k915 : list string := ["colon"; "exprs"; "leading_label"].
Definition c916 : list (string * cdesc) := [("as_struct_or_value", (CD false true m4 None)); ("colon", (CD true false m6 None)); ("differential_privacy", (CD true false m120 (Some w21))); ("distinct_or_all", (CD true false m4 (Some w121))); ("exprs", (CD false true m3 None)); ("from", (CD true false m52 (Some w72))); ("groupby", (CD true false m122 (Some w123))); ("having", (CD true false m52 (Some w51))); ("leading_label", (CD true false m75 None)); ("limit", (CD true false m87 (Some w53))); ("orderby", (CD true false m54 (Some w55))); ("qualify", (CD true false m52 (Some w124))); ("semicolon", (CD true false m6 (Some w76))); ("trailing_label", (CD true false m75 None)); ("where", (CD true false m52 (Some w125))); ("window", (CD true false m126 (Some w127))); ("with", (CD true false m77 (Some w21)))].
Definition e917 : entry := En N_SelectStatement (Some true) (Some w280) k915 c916.
Definition c918 : list (string * cdesc) := [("by", (CD true false m50 (Some w131))); ("corresponding", (CD true false m132 (Some w133))); ("distinct_or_all", (CD true false m4 None)); ("left", (CD true false m134 None)); ("limit", (CD true false m87 (Some w53))); ("method", (CD true false m132 (Some w135))); ("orderby", (CD true false m54 (Some w55))); ("right", (CD true false m88 None)); ("semicolon", (CD true false m6 (Some w76))); ("with", (CD true false m77 (Some w21)))].
Definition e919 : entry := En N_SetOperator (Some true) None k130 c918.
Definition k920 : list string := ["colon"; "distinct_or_all"; "leading_label"; "left"; "right"].
Definition c921 : list (string * cdesc) := [("by", (CD true false m50 (Some w131))); ("colon", (CD true false m6 None)); ("corresponding", (CD true false m132 (Some w133))); ("distinct_or_all", (CD true false m4 None)); ("leading_label", (CD true false m75 None)); ("left", (CD true false m134 None)); ("limit", (CD true false m87 (Some w53))); ("method", (CD true false m132 (Some w135))); ("orderby", (CD true false m54 (Some w55))); ("right", (CD true false m88 None)); ("semicolon", (CD true false m6 (Some w76))); ("trailing_label", (CD true false m75 None)); ("with", (CD true false m77 (Some w21)))].
Definition e922 : entry := En N_SetOperator (Some true) None k920 c921.
Definition c923 : list (string * cdesc) := [("expr", (CD true false m3 None)); ("semicolon", (CD true false m6 (Some w76)))].
Definition e924 : entry := En N_SetStatement (Some true) (Some w641) k73 c923.
Definition c925 : list (string * cdesc) := [("colon", (CD true false m6 None)); ("expr", (CD true false m3 None)); ("leading_label", (CD true false m75 None)); ("semicolon", (CD true false m6 (Some w76))); ("trailing_label", (CD true false m75 None))].
Definition e926 : entry := En N_SetStatement (Some true) (Some w641) k690 c925.
Definition w927 : list string := ["RETURN"].
Definition c928 : list (string * cdesc) := [("semicolon", (CD true false m6 (Some w76)))].
Definition e929 : entry := En N_SingleTokenStatement (Some true) (Some w927) k29 c928.
Definition c930 : list (string * cdesc) := [("colon", (CD true false m6 None)); ("leading_label", (CD true false m75 None)); ("semicolon", (CD true false m6 (Some w76))); ("trailing_label", (CD true false m75 None))].
Definition e931 : entry := En N_SingleTokenStatement (Some true) (Some w927) k704 c930.
Definition w932 : list string := ["BEGIN"; "COMMIT"; "ROLLBACK"].
Definition w933 : list string := ["TRANSACTION"].
Definition c934 : list (string * cdesc) := [("semicolon", (CD true false m6 (Some w76))); ("transaction", (CD true false m4 (Some w933)))].
Definition e935 : entry := En N_TransactionStatement (Some true) (Some w932) k29 c934.
Definition c936 : list (string * cdesc) := [("colon", (CD true false m6 None)); ("leading_label", (CD true false m75 None)); ("semicolon", (CD true false m6 (Some w76))); ("trailing_label", (CD true false m75 None)); ("transaction", (CD true false m4 (Some w933)))].
Definition e937 : entry := En N_TransactionStatement (Some true) (Some w932) k704 c936.
Definition w938 : list string := ["TRUNCATE"].
Definition k939 : list string := ["table"; "table_name"].
Definition c940 : list (string * cdesc) := [("semicolon", (CD true false m6 (Some w76))); ("table", (CD true false m4 None)); ("table_name", (CD true false m166 None))].
Definition e941 : entry := En N_TruncateStatement (Some true) (Some w938) k939 c940.
Definition k942 : list string := ["colon"; "leading_label"; "table"; "table_name"].
Definition c943 : list (string * cdesc) := [("colon", (CD true false m6 None)); ("leading_label", (CD true false m75 None)); ("semicolon", (CD true false m6 (Some w76))); ("table", (CD true false m4 None)); ("table_name", (CD true false m166 None)); ("trailing_label", (CD true false m75 None))].
Definition e944 : entry := En N_TruncateStatement (Some true) (Some w938) k942 c943.
Definition w945 : list string := ["UNDROP"].
Definition c946 : list (string * cdesc) := [("ident", (CD true false m166 None)); ("if_not_exists", (CD false true m4 None)); ("semicolon", (CD true false m6 (Some w76))); ("what", (CD true false m4 None))].
Definition e947 : entry := En N_UndropStatement (Some true) (Some w945) k640 c946.
Definition c948 : list (string * cdesc) := [("colon", (CD true false m6 None)); ("ident", (CD true false m166 None)); ("if_not_exists", (CD false true m4 None)); ("leading_label", (CD true false m75 None)); ("semicolon", (CD true false m6 (Some w76))); ("trailing_label", (CD true false m75 None)); ("what", (CD true false m4 None))].
Definition e949 : entry := En N_UndropStatement (Some true) (Some w945) k644 c948.
Definition w950 : list string := ["UPDATE"].
Definition k951 : list string := ["set"].
Definition c952 : list (string * cdesc) := [("from", (CD true false m52 (Some w72))); ("semicolon", (CD true false m6 (Some w76))); ("set", (CD true false m815 None)); ("table_name", (CD true false m74 None)); ("where", (CD true false m52 (Some w125)))].
Definition e953 : entry := En N_UpdateStatement (Some true) (Some w950) k951 c952.
Definition k954 : list string := ["colon"; "leading_label"; "set"].
Definition c955 : list (string * cdesc) := [("colon", (CD true false m6 None)); ("from", (CD true false m52 (Some w72))); ("leading_label", (CD true false m75 None)); ("semicolon", (CD true false m6 (Some w76))); ("set", (CD true false m815 None)); ("table_name", (CD true false m74 None)); ("trailing_label", (CD true false m75 None)); ("where", (CD true false m52 (Some w125)))].
Definition e956 : entry := En N_UpdateStatement (Some true) (Some w950) k954 c955.
Definition w957 : list string := ["WHILE"].
Definition k958 : list string := ["condition"; "do"; "end_while"].
Definition c959 : list (string * cdesc) := [("condition", (CD true false m3 None)); ("do", (CD true false m695 None)); ("end_while", (CD false true m4 None)); ("semicolon", (CD true false m6 (Some w76)))].
Definition e960 : entry := En N_WhileStatement (Some true) (Some w957) k958 c959.
Definition k961 : list string := ["colon"; "condition"; "do"; "end_while"; "leading_label"].
Definition c962 : list (string * cdesc) := [("colon", (CD true false m6 None)); ("condition", (CD true false m3 None)); ("do", (CD true false m695 None)); ("end_while", (CD false true m4 None)); ("leading_label", (CD true false m75 None)); ("semicolon", (CD true false m6 (Some w76))); ("trailing_label", (CD true false m75 None))].
Definition e963 : entry := En N_WhileStatement (Some true) (Some w957) k961 c962.
Definition d964 : desc := [e636; e639; e643; e646; e648; e650; e653; e656; e657; e658; e659; e660; e663; e665; e673; e675; e678; e681; e684; e686; e689; e692; e697; e700; e703; e706; e710; e713; e718; e721; e732; e735; e739; e742; e747; e749; e754; e756; e758; e760; e764; e767; e769; e771; e778; e780; e784; e786; e790; e793; e797; e800; e803; e806; e810; e812; e819; e822; e826; e829; e831; e833; e836; e839; e840; e842; e845; e848; e850; e853; e857; e860; e865; e868; e874; e877; e880; e883; e888; e891; e414; e894; e897; e899; e902; e905; e909; e912; e914; e917; e919; e922; e924; e926; e929; e931; e935; e937; e941; e944; e947; e949; e953; e956; e960; e963].
Definition c965 : list (string * cdesc) := [("ident", (CD true false m166 None)); ("options", (CD true false m30 None)); ("set", (CD true false m4 None)); ("what", (CD true false m4 None))].
Definition e966 : entry := En N_AlterBICapacityStatement (Some true) (Some w633) k634 c965.
Definition c967 : list (string * cdesc) := [("colon", (CD true false m6 None)); ("ident", (CD true false m166 None)); ("leading_label", (CD true false m75 None)); ("options", (CD true false m30 None)); ("set", (CD true false m4 None)); ("trailing_label", (CD true false m75 None)); ("what", (CD true false m4 None))].
Definition e968 : entry := En N_AlterBICapacityStatement (Some true) (Some w633) k637 c967.
Definition c969 : list (string * cdesc) := [("data_type", (CD false true m4 None)); ("default", (CD true false m52 None)); ("drop_default", (CD false true m4 None)); ("drop_not_null", (CD false true m4 None)); ("ident", (CD true false m75 None)); ("if_exists", (CD false true m4 None)); ("options", (CD true false m30 (Some w584))); ("set", (CD true false m4 (Some w641))); ("type", (CD true false m25 None)); ("what", (CD true false m4 None))].
Definition e970 : entry := En N_AlterColumnStatement (Some true) (Some w633) k640 c969.
Definition c971 : list (string * cdesc) := [("colon", (CD true false m6 None)); ("data_type", (CD false true m4 None)); ("default", (CD true false m52 None)); ("drop_default", (CD false true m4 None)); ("drop_not_null", (CD false true m4 None)); ("ident", (CD true false m75 None)); ("if_exists", (CD false true m4 None)); ("leading_label", (CD true false m75 None)); ("options", (CD true false m30 (Some w584))); ("set", (CD true false m4 (Some w641))); ("trailing_label", (CD true false m75 None)); ("type", (CD true false m25 None)); ("what", (CD true false m4 None))].
Definition e972 : entry := En N_AlterColumnStatement (Some true) (Some w633) k644 c971.
Definition c973 : list (string * cdesc) := [("ident", (CD true false m166 None)); ("if_exists", (CD false true m4 None)); ("options", (CD true false m30 None)); ("set", (CD true false m4 None)); ("what", (CD true false m4 None))].
Definition e974 : entry := En N_AlterModelStatement (Some true) (Some w633) k634 c973.
Definition c975 : list (string * cdesc) := [("colon", (CD true false m6 None)); ("ident", (CD true false m166 None)); ("if_exists", (CD false true m4 None)); ("leading_label", (CD true false m75 None)); ("options", (CD true false m30 None)); ("set", (CD true false m4 None)); ("trailing_label", (CD true false m75 None)); ("what", (CD true false m4 None))].
Definition e976 : entry := En N_AlterModelStatement (Some true) (Some w633) k637 c975.
Definition c977 : list (string * cdesc) := [("options", (CD true false m30 None)); ("set", (CD true false m4 None)); ("what", (CD true false m4 None))].
Definition e978 : entry := En N_AlterOrganizationStatement (Some true) (Some w633) k651 c977.
Definition c979 : list (string * cdesc) := [("colon", (CD true false m6 None)); ("leading_label", (CD true false m75 None)); ("options", (CD true false m30 None)); ("set", (CD true false m4 None)); ("trailing_label", (CD true false m75 None)); ("what", (CD true false m4 None))].
Definition e980 : entry := En N_AlterOrganizationStatement (Some true) (Some w633) k654 c979.
Definition e981 : entry := En N_AlterProjectStatement (Some true) (Some w633) k651 c965.
Definition e982 : entry := En N_AlterProjectStatement (Some true) (Some w633) k654 c967.
Definition e983 : entry := En N_AlterReservationStatement (Some true) (Some w633) k634 c965.
Definition e984 : entry := En N_AlterReservationStatement (Some true) (Some w633) k637 c967.
Definition c985 : list (string * cdesc) := [("add", (CD true false m50 (Some w661))); ("default_collate", (CD true false m50 (Some w618))); ("drop", (CD true false m50 (Some w617))); ("ident", (CD true false m166 None)); ("if_exists", (CD false true m4 None)); ("options", (CD true false m30 (Some w584))); ("set", (CD true false m4 (Some w641))); ("what", (CD true false m4 None))].
Definition e986 : entry := En N_AlterSchemaStatement (Some true) (Some w633) k640 c985.
Definition c987 : list (string * cdesc) := [("add", (CD true false m50 (Some w661))); ("colon", (CD true false m6 None)); ("default_collate", (CD true false m50 (Some w618))); ("drop", (CD true false m50 (Some w617))); ("ident", (CD true false m166 None)); ("if_exists", (CD false true m4 None)); ("leading_label", (CD true false m75 None)); ("options", (CD true false m30 (Some w584))); ("set", (CD true false m4 (Some w641))); ("trailing_label", (CD true false m75 None)); ("what", (CD true false m4 None))].
Definition e988 : entry := En N_AlterSchemaStatement (Some true) (Some w633) k644 c987.
Definition c989 : list (string * cdesc) := [("add_columns", (CD false true m666 None)); ("add_constraints", (CD false true m667 None)); ("alter_column_stmt", (CD true false m668 (Some w633))); ("default_collate", (CD true false m50 (Some w618))); ("drop_columns", (CD false true m669 None)); ("ident", (CD true false m166 None)); ("if_exists", (CD false true m4 None)); ("options", (CD true false m30 (Some w584))); ("rename", (CD true false m4 (Some w670))); ("rename_columns", (CD false true m671 None)); ("set", (CD true false m4 (Some w641))); ("to", (CD true false m52 (Some w98))); ("what", (CD true false m4 None))].
Definition e990 : entry := En N_AlterTableStatement (Some true) (Some w633) k640 c989.
Definition c991 : list (string * cdesc) := [("add_columns", (CD false true m666 None)); ("add_constraints", (CD false true m667 None)); ("alter_column_stmt", (CD true false m668 (Some w633))); ("colon", (CD true false m6 None)); ("default_collate", (CD true false m50 (Some w618))); ("drop_columns", (CD false true m669 None)); ("ident", (CD true false m166 None)); ("if_exists", (CD false true m4 None)); ("leading_label", (CD true false m75 None)); ("options", (CD true false m30 (Some w584))); ("rename", (CD true false m4 (Some w670))); ("rename_columns", (CD false true m671 None)); ("set", (CD true false m4 (Some w641))); ("to", (CD true false m52 (Some w98))); ("trailing_label", (CD true false m75 None)); ("what", (CD true false m4 None))].
Definition e992 : entry := En N_AlterTableStatement (Some true) (Some w633) k644 c991.
Definition c993 : list (string * cdesc) := [("ident", (CD true false m166 None)); ("if_exists", (CD false true m4 None)); ("on", (CD true false m52 None)); ("operation", (CD true false m4 None)); ("what", (CD true false m50 None))].
Definition e994 : entry := En N_AlterVectorIndexStatement (Some true) (Some w633) k676 c993.
Definition c995 : list (string * cdesc) := [("colon", (CD true false m6 None)); ("ident", (CD true false m166 None)); ("if_exists", (CD false true m4 None)); ("leading_label", (CD true false m75 None)); ("on", (CD true false m52 None)); ("operation", (CD true false m4 None)); ("trailing_label", (CD true false m75 None)); ("what", (CD true false m50 None))].
Definition e996 : entry := En N_AlterVectorIndexStatement (Some true) (Some w633) k679 c995.
Definition c997 : list (string * cdesc) := [("alter_column_stmt", (CD true false m668 (Some w633))); ("ident", (CD true false m166 None)); ("if_exists", (CD false true m4 None)); ("materialized", (CD true false m4 (Some w682))); ("options", (CD true false m30 None)); ("set", (CD true false m4 None)); ("what", (CD true false m4 None))].
Definition e998 : entry := En N_AlterViewStatement (Some true) (Some w633) k640 c997.
Definition c999 : list (string * cdesc) := [("alter_column_stmt", (CD true false m668 (Some w633))); ("colon", (CD true false m6 None)); ("ident", (CD true false m166 None)); ("if_exists", (CD false true m4 None)); ("leading_label", (CD true false m75 None)); ("materialized", (CD true false m4 (Some w682))); ("options", (CD true false m30 None)); ("set", (CD true false m4 None)); ("trailing_label", (CD true false m75 None)); ("what", (CD true false m4 None))].
Definition e1000 : entry := En N_AlterViewStatement (Some true) (Some w633) k644 c999.
Definition c1001 : list (string * cdesc) := [("as", (CD true false m4 (Some w5))); ("description", (CD true false m3 None)); ("expr", (CD true false m3 None))].
Definition e1002 : entry := En N_AssertStatement (Some true) (Some w687) k73 c1001.
Definition c1003 : list (string * cdesc) := [("as", (CD true false m4 (Some w5))); ("colon", (CD true false m6 None)); ("description", (CD true false m3 None)); ("expr", (CD true false m3 None)); ("leading_label", (CD true false m75 None)); ("trailing_label", (CD true false m75 None))].
Definition e1004 : entry := En N_AssertStatement (Some true) (Some w687) k690 c1003.
Definition c1005 : list (string * cdesc) := [("end", (CD true false m4 (Some w603))); ("exception_when_error", (CD false true m4 None)); ("stmts", (CD false true m599 None)); ("then", (CD true false m695 None))].
Definition e1006 : entry := En N_BeginStatement (Some true) (Some w693) k694 c1005.
Definition c1007 : list (string * cdesc) := [("colon", (CD true false m6 None)); ("end", (CD true false m4 (Some w603))); ("exception_when_error", (CD false true m4 None)); ("leading_label", (CD true false m75 None)); ("stmts", (CD false true m599 None)); ("then", (CD true false m695 None)); ("trailing_label", (CD true false m75 None))].
Definition e1008 : entry := En N_BeginStatement (Some true) (Some w693) k698 c1007.
Definition c1009 : list (string * cdesc) := [("label", (CD true false m75 None))].
Definition e1010 : entry := En N_BreakContinueStatement (Some true) (Some w701) k29 c1009.
Definition c1011 : list (string * cdesc) := [("colon", (CD true false m6 None)); ("label", (CD true false m75 None)); ("leading_label", (CD true false m75 None)); ("trailing_label", (CD true false m75 None))].
Definition e1012 : entry := En N_BreakContinueStatement (Some true) (Some w701) k704 c1011.
Definition c1013 : list (string * cdesc) := [("procedure", (CD true false m3 None))].
Definition e1014 : entry := En N_CallStatement (Some true) (Some w707) k708 c1013.
Definition c1015 : list (string * cdesc) := [("colon", (CD true false m6 None)); ("leading_label", (CD true false m75 None)); ("procedure", (CD true false m3 None)); ("trailing_label", (CD true false m75 None))].
Definition e1016 : entry := En N_CallStatement (Some true) (Some w707) k711 c1015.
Definition c1017 : list (string * cdesc) := [("arms", (CD false true m716 None)); ("end_case", (CD false true m4 None)); ("expr", (CD true false m3 None))].
Definition e1018 : entry := En N_CaseStatement (Some true) (Some w714) k715 c1017.
Definition c1019 : list (string * cdesc) := [("arms", (CD false true m716 None)); ("colon", (CD true false m6 None)); ("end_case", (CD false true m4 None)); ("expr", (CD true false m3 None)); ("leading_label", (CD true false m75 None)); ("trailing_label", (CD true false m75 None))].
Definition e1020 : entry := En N_CaseStatement (Some true) (Some w714) k719 c1019.
Definition c1021 : list (string * cdesc) := [("aggregate", (CD true false m4 (Some w724))); ("as", (CD true false m725 None)); ("connection", (CD true false m50 None)); ("determinism", (CD false true m4 None)); ("group", (CD true false m726 None)); ("ident", (CD true false m166 None)); ("if_not_exists", (CD false true m4 None)); ("language", (CD true false m52 None)); ("options", (CD true false m30 (Some w584))); ("or_replace", (CD false true m4 None)); ("remote", (CD true false m4 (Some w727))); ("returns", (CD true false m728 (Some w729))); ("table", (CD true false m4 (Some w512))); ("temp", (CD true false m4 (Some w730))); ("what", (CD true false m4 None))].
Definition e1022 : entry := En N_CreateFunctionStatement (Some true) (Some w722) k723 c1021.
Definition c1023 : list (string * cdesc) := [("aggregate", (CD true false m4 (Some w724))); ("as", (CD true false m725 None)); ("colon", (CD true false m6 None)); ("connection", (CD true false m50 None)); ("determinism", (CD false true m4 None)); ("group", (CD true false m726 None)); ("ident", (CD true false m166 None)); ("if_not_exists", (CD false true m4 None)); ("language", (CD true false m52 None)); ("leading_label", (CD true false m75 None)); ("options", (CD true false m30 (Some w584))); ("or_replace", (CD false true m4 None)); ("remote", (CD true false m4 (Some w727))); ("returns", (CD true false m728 (Some w729))); ("table", (CD true false m4 (Some w512))); ("temp", (CD true false m4 (Some w730))); ("trailing_label", (CD true false m75 None)); ("what", (CD true false m4 None))].
Definition e1024 : entry := En N_CreateFunctionStatement (Some true) (Some w722) k733 c1023.
Definition c1025 : list (string * cdesc) := [("column_group", (CD true false m737 None)); ("ident", (CD true false m166 None)); ("if_not_exists", (CD false true m4 None)); ("on", (CD true false m4 None)); ("options", (CD true false m30 (Some w584))); ("or_replace", (CD false true m4 None)); ("partitionby", (CD true false m54 (Some w623))); ("storing", (CD true false m30 (Some w589))); ("tablename", (CD true false m166 None)); ("what", (CD true false m50 None))].
Definition e1026 : entry := En N_CreateIndexStatement (Some true) (Some w722) k736 c1025.
Definition c1027 : list (string * cdesc) := [("colon", (CD true false m6 None)); ("column_group", (CD true false m737 None)); ("ident", (CD true false m166 None)); ("if_not_exists", (CD false true m4 None)); ("leading_label", (CD true false m75 None)); ("on", (CD true false m4 None)); ("options", (CD true false m30 (Some w584))); ("or_replace", (CD false true m4 None)); ("partitionby", (CD true false m54 (Some w623))); ("storing", (CD true false m30 (Some w589))); ("tablename", (CD true false m166 None)); ("trailing_label", (CD true false m75 None)); ("what", (CD true false m50 None))].
Definition e1028 : entry := En N_CreateIndexStatement (Some true) (Some w722) k740 c1027.
Definition c1029 : list (string * cdesc) := [("ident", (CD true false m166 None)); ("if_not_exists", (CD false true m4 None)); ("input", (CD true false m30 (Some w743))); ("options", (CD true false m30 (Some w584))); ("or_replace", (CD false true m4 None)); ("output", (CD true false m30 (Some w744))); ("query", (CD true false m745 (Some w5))); ("remote", (CD true false m50 (Some w727))); ("training_data_custom_holiday", (CD true false m30 (Some w5))); ("transform", (CD true false m30 (Some w592))); ("what", (CD true false m4 None))].
Definition e1030 : entry := En N_CreateModelStatement (Some true) (Some w722) k640 c1029.
Definition c1031 : list (string * cdesc) := [("colon", (CD true false m6 None)); ("ident", (CD true false m166 None)); ("if_not_exists", (CD false true m4 None)); ("input", (CD true false m30 (Some w743))); ("leading_label", (CD true false m75 None)); ("options", (CD true false m30 (Some w584))); ("or_replace", (CD false true m4 None)); ("output", (CD true false m30 (Some w744))); ("query", (CD true false m745 (Some w5))); ("remote", (CD true false m50 (Some w727))); ("trailing_label", (CD true false m75 None)); ("training_data_custom_holiday", (CD true false m30 (Some w5))); ("transform", (CD true false m30 (Some w592))); ("what", (CD true false m4 None))].
Definition e1032 : entry := En N_CreateModelStatement (Some true) (Some w722) k644 c1031.
Definition c1033 : list (string * cdesc) := [("as", (CD true false m52 (Some w5))); ("external", (CD true false m50 (Some w750))); ("group", (CD true false m726 None)); ("ident", (CD true false m166 None)); ("if_not_exists", (CD false true m4 None)); ("language", (CD true false m52 (Some w751))); ("options", (CD true false m30 (Some w584))); ("or_replace", (CD false true m4 None)); ("stmt", (CD true false m752 (Some w693))); ("what", (CD true false m4 None)); ("with_connection", (CD true false m50 (Some w21)))].
Definition e1034 : entry := En N_CreateProcedureStatement (Some true) (Some w722) k723 c1033.
Definition c1035 : list (string * cdesc) := [("as", (CD true false m52 (Some w5))); ("colon", (CD true false m6 None)); ("external", (CD true false m50 (Some w750))); ("group", (CD true false m726 None)); ("ident", (CD true false m166 None)); ("if_not_exists", (CD false true m4 None)); ("language", (CD true false m52 (Some w751))); ("leading_label", (CD true false m75 None)); ("options", (CD true false m30 (Some w584))); ("or_replace", (CD false true m4 None)); ("stmt", (CD true false m752 (Some w693))); ("trailing_label", (CD true false m75 None)); ("what", (CD true false m4 None)); ("with_connection", (CD true false m50 (Some w21)))].
Definition e1036 : entry := En N_CreateProcedureStatement (Some true) (Some w722) k733 c1035.
Definition c1037 : list (string * cdesc) := [("as", (CD true false m4 (Some w5))); ("ident", (CD true false m166 None)); ("json", (CD true false m4 None)); ("json_string", (CD true false m3 None)); ("options", (CD true false m30 (Some w584))); ("what", (CD true false m4 None))].
Definition e1038 : entry := En N_CreateReservationStatement (Some true) (Some w722) k640 c1037.
Definition c1039 : list (string * cdesc) := [("as", (CD true false m4 (Some w5))); ("colon", (CD true false m6 None)); ("ident", (CD true false m166 None)); ("json", (CD true false m4 None)); ("json_string", (CD true false m3 None)); ("leading_label", (CD true false m75 None)); ("options", (CD true false m30 (Some w584))); ("trailing_label", (CD true false m75 None)); ("what", (CD true false m4 None))].
Definition e1040 : entry := En N_CreateReservationStatement (Some true) (Some w722) k644 c1039.
Definition c1041 : list (string * cdesc) := [("filter", (CD true false m4 None)); ("grant", (CD true false m4 (Some w762))); ("ident", (CD true false m166 None)); ("if_not_exists", (CD false true m4 None)); ("on", (CD true false m52 None)); ("or_replace", (CD false true m4 None)); ("to", (CD true false m30 None)); ("using", (CD true false m52 None)); ("what", (CD false true m4 None))].
Definition e1042 : entry := En N_CreateRowAccessPolicyStatement (Some true) (Some w722) k761 c1041.
Definition c1043 : list (string * cdesc) := [("colon", (CD true false m6 None)); ("filter", (CD true false m4 None)); ("grant", (CD true false m4 (Some w762))); ("ident", (CD true false m166 None)); ("if_not_exists", (CD false true m4 None)); ("leading_label", (CD true false m75 None)); ("on", (CD true false m52 None)); ("or_replace", (CD false true m4 None)); ("to", (CD true false m30 None)); ("trailing_label", (CD true false m75 None)); ("using", (CD true false m52 None)); ("what", (CD false true m4 None))].
Definition e1044 : entry := En N_CreateRowAccessPolicyStatement (Some true) (Some w722) k765 c1043.
Definition c1045 : list (string * cdesc) := [("default_collate", (CD true false m50 (Some w618))); ("external", (CD true false m4 (Some w750))); ("ident", (CD true false m166 None)); ("if_not_exists", (CD false true m4 None)); ("options", (CD true false m30 (Some w584))); ("what", (CD true false m4 None)); ("with_connection", (CD true false m50 (Some w21)))].
Definition e1046 : entry := En N_CreateSchemaStatement (Some true) (Some w722) k640 c1045.
Definition c1047 : list (string * cdesc) := [("colon", (CD true false m6 None)); ("default_collate", (CD true false m50 (Some w618))); ("external", (CD true false m4 (Some w750))); ("ident", (CD true false m166 None)); ("if_not_exists", (CD false true m4 None)); ("leading_label", (CD true false m75 None)); ("options", (CD true false m30 (Some w584))); ("trailing_label", (CD true false m75 None)); ("what", (CD true false m4 None)); ("with_connection", (CD true false m50 (Some w21)))].
Definition e1048 : entry := En N_CreateSchemaStatement (Some true) (Some w722) k644 c1047.
Definition c1049 : list (string * cdesc) := [("as", (CD true false m745 (Some w5))); ("clone", (CD true false m52 (Some w772))); ("clusterby", (CD true false m54 (Some w773))); ("column_schema_group", (CD true false m726 (Some w46))); ("default_collate", (CD true false m50 (Some w618))); ("external", (CD true false m4 (Some w750))); ("ident", (CD true false m166 None)); ("if_not_exists", (CD false true m4 None)); ("like_or_copy", (CD true false m4 (Some w774))); ("options", (CD true false m30 (Some w584))); ("or_replace", (CD false true m4 None)); ("partitionby", (CD true false m54 (Some w623))); ("snapshot", (CD true false m4 (Some w775))); ("source_table", (CD true false m166 None)); ("temp", (CD true false m4 (Some w730))); ("what", (CD true false m4 None)); ("with_connection", (CD true false m50 (Some w21))); ("with_partition_columns", (CD true false m776 (Some w21)))].
Definition e1050 : entry := En N_CreateTableStatement (Some true) (Some w722) k640 c1049.
Definition c1051 : list (string * cdesc) := [("as", (CD true false m745 (Some w5))); ("clone", (CD true false m52 (Some w772))); ("clusterby", (CD true false m54 (Some w773))); ("colon", (CD true false m6 None)); ("column_schema_group", (CD true false m726 (Some w46))); ("default_collate", (CD true false m50 (Some w618))); ("external", (CD true false m4 (Some w750))); ("ident", (CD true false m166 None)); ("if_not_exists", (CD false true m4 None)); ("leading_label", (CD true false m75 None)); ("like_or_copy", (CD true false m4 (Some w774))); ("options", (CD true false m30 (Some w584))); ("or_replace", (CD false true m4 None)); ("partitionby", (CD true false m54 (Some w623))); ("snapshot", (CD true false m4 (Some w775))); ("source_table", (CD true false m166 None)); ("temp", (CD true false m4 (Some w730))); ("trailing_label", (CD true false m75 None)); ("what", (CD true false m4 None)); ("with_connection", (CD true false m50 (Some w21))); ("with_partition_columns", (CD true false m776 (Some w21)))].
Definition e1052 : entry := En N_CreateTableStatement (Some true) (Some w722) k644 c1051.
Definition c1053 : list (string * cdesc) := [("as", (CD true false m781 (Some w5))); ("clusterby", (CD true false m54 (Some w773))); ("column_name_list", (CD true false m782 (Some w46))); ("ident", (CD true false m166 None)); ("if_not_exists", (CD false true m4 None)); ("materialized", (CD true false m4 (Some w682))); ("options", (CD true false m30 (Some w584))); ("or_replace", (CD false true m4 None)); ("partitionby", (CD true false m54 (Some w623))); ("what", (CD true false m4 None))].
Definition e1054 : entry := En N_CreateViewStatement (Some true) (Some w722) k640 c1053.
Definition c1055 : list (string * cdesc) := [("as", (CD true false m781 (Some w5))); ("clusterby", (CD true false m54 (Some w773))); ("colon", (CD true false m6 None)); ("column_name_list", (CD true false m782 (Some w46))); ("ident", (CD true false m166 None)); ("if_not_exists", (CD false true m4 None)); ("leading_label", (CD true false m75 None)); ("materialized", (CD true false m4 (Some w682))); ("options", (CD true false m30 (Some w584))); ("or_replace", (CD false true m4 None)); ("partitionby", (CD true false m54 (Some w623))); ("trailing_label", (CD true false m75 None)); ("what", (CD true false m4 None))].
Definition e1056 : entry := En N_CreateViewStatement (Some true) (Some w722) k644 c1055.
Definition c1057 : list (string * cdesc) := [("default", (CD true false m52 (Some w618))); ("idents", (CD false true m166 None)); ("variable_type", (CD true false m25 None))].
Definition e1058 : entry := En N_DeclareStatement (Some true) (Some w787) k788 c1057.
Definition c1059 : list (string * cdesc) := [("colon", (CD true false m6 None)); ("default", (CD true false m52 (Some w618))); ("idents", (CD false true m166 None)); ("leading_label", (CD true false m75 None)); ("trailing_label", (CD true false m75 None)); ("variable_type", (CD true false m25 None))].
Definition e1060 : entry := En N_DeclareStatement (Some true) (Some w787) k791 c1059.
Definition c1061 : list (string * cdesc) := [("from", (CD true false m4 (Some w72))); ("table_name", (CD true false m166 None)); ("where", (CD true false m52 None))].
Definition e1062 : entry := En N_DeleteStatement (Some true) (Some w794) k795 c1061.
Definition c1063 : list (string * cdesc) := [("colon", (CD true false m6 None)); ("from", (CD true false m4 (Some w72))); ("leading_label", (CD true false m75 None)); ("table_name", (CD true false m166 None)); ("trailing_label", (CD true false m75 None)); ("where", (CD true false m52 None))].
Definition e1064 : entry := En N_DeleteStatement (Some true) (Some w794) k798 c1063.
Definition c1065 : list (string * cdesc) := [("ident", (CD true false m166 None)); ("if_exists", (CD false true m4 None)); ("on", (CD true false m52 None)); ("what", (CD false true m4 None))].
Definition e1066 : entry := En N_DropRowAccessPolicyStatement (Some true) (Some w617) k801 c1065.
Definition c1067 : list (string * cdesc) := [("colon", (CD true false m6 None)); ("ident", (CD true false m166 None)); ("if_exists", (CD false true m4 None)); ("leading_label", (CD true false m75 None)); ("on", (CD true false m52 None)); ("trailing_label", (CD true false m75 None)); ("what", (CD false true m4 None))].
Definition e1068 : entry := En N_DropRowAccessPolicyStatement (Some true) (Some w617) k804 c1067.
Definition c1069 : list (string * cdesc) := [("cascade_or_restrict", (CD true false m4 (Some w807))); ("external", (CD true false m4 (Some w750))); ("ident", (CD true false m166 None)); ("if_exists", (CD false true m4 None)); ("materialized", (CD true false m4 (Some w682))); ("on", (CD true false m52 (Some w808))); ("table", (CD true false m4 (Some w512))); ("what", (CD true false m132 None))].
Definition e1070 : entry := En N_DropStatement (Some true) (Some w617) k640 c1069.
Definition c1071 : list (string * cdesc) := [("cascade_or_restrict", (CD true false m4 (Some w807))); ("colon", (CD true false m6 None)); ("external", (CD true false m4 (Some w750))); ("ident", (CD true false m166 None)); ("if_exists", (CD false true m4 None)); ("leading_label", (CD true false m75 None)); ("materialized", (CD true false m4 (Some w682))); ("on", (CD true false m52 (Some w808))); ("table", (CD true false m4 (Some w512))); ("trailing_label", (CD true false m75 None)); ("what", (CD true false m132 None))].
Definition e1072 : entry := En N_DropStatement (Some true) (Some w617) k644 c1071.
Definition c1073 : list (string * cdesc) := [("immediate", (CD true false m4 None)); ("into", (CD true false m815 (Some w816))); ("sql_expr", (CD true false m3 None)); ("using", (CD true false m815 (Some w817)))].
Definition e1074 : entry := En N_ExecuteStatement (Some true) (Some w813) k814 c1073.
Definition c1075 : list (string * cdesc) := [("colon", (CD true false m6 None)); ("immediate", (CD true false m4 None)); ("into", (CD true false m815 (Some w816))); ("leading_label", (CD true false m75 None)); ("sql_expr", (CD true false m3 None)); ("trailing_label", (CD true false m75 None)); ("using", (CD true false m815 (Some w817)))].
Definition e1076 : entry := En N_ExecuteStatement (Some true) (Some w813) k820 c1075.
Definition c1077 : list (string * cdesc) := [("as", (CD true false m745 None)); ("data", (CD true false m4 (Some w621))); ("options", (CD true false m30 None)); ("with_connection", (CD true false m50 (Some w21)))].
Definition e1078 : entry := En N_ExportDataStatement (Some true) (Some w823) k824 c1077.
Definition c1079 : list (string * cdesc) := [("as", (CD true false m745 None)); ("colon", (CD true false m6 None)); ("data", (CD true false m4 (Some w621))); ("leading_label", (CD true false m75 None)); ("options", (CD true false m30 None)); ("trailing_label", (CD true false m75 None)); ("with_connection", (CD true false m50 (Some w21)))].
Definition e1080 : entry := En N_ExportDataStatement (Some true) (Some w823) k827 c1079.
Definition c1081 : list (string * cdesc) := [("ident", (CD true false m166 None)); ("options", (CD true false m30 (Some w584))); ("what", (CD true false m4 None))].
Definition e1082 : entry := En N_ExportModelStatement (Some true) (Some w823) k640 c1081.
Definition c1083 : list (string * cdesc) := [("colon", (CD true false m6 None)); ("ident", (CD true false m166 None)); ("leading_label", (CD true false m75 None)); ("options", (CD true false m30 (Some w584))); ("trailing_label", (CD true false m75 None)); ("what", (CD true false m4 None))].
Definition e1084 : entry := En N_ExportModelStatement (Some true) (Some w823) k644 c1083.
Definition c1085 : list (string * cdesc) := [("do", (CD true false m695 None)); ("end_for", (CD false true m4 None)); ("ident", (CD true false m75 None)); ("in", (CD true false m30 None))].
Definition e1086 : entry := En N_ForStatement (Some true) (Some w9) k834 c1085.
Definition c1087 : list (string * cdesc) := [("colon", (CD true false m6 None)); ("do", (CD true false m695 None)); ("end_for", (CD false true m4 None)); ("ident", (CD true false m75 None)); ("in", (CD true false m30 None)); ("leading_label", (CD true false m75 None)); ("trailing_label", (CD true false m75 None))].
Definition e1088 : entry := En N_ForStatement (Some true) (Some w9) k837 c1087.
Definition c1089 : list (string * cdesc) := [("ident", (CD true false m166 None)); ("on", (CD true false m4 None)); ("resource_type", (CD true false m4 None)); ("roles", (CD false true m3 None)); ("to", (CD true false m815 None))].
Definition e1090 : entry := En N_GrantStatement (Some true) (Some w762) k843 c1089.
Definition c1091 : list (string * cdesc) := [("colon", (CD true false m6 None)); ("ident", (CD true false m166 None)); ("leading_label", (CD true false m75 None)); ("on", (CD true false m4 None)); ("resource_type", (CD true false m4 None)); ("roles", (CD false true m3 None)); ("to", (CD true false m815 None)); ("trailing_label", (CD true false m75 None))].
Definition e1092 : entry := En N_GrantStatement (Some true) (Some w762) k846 c1091.
Definition c1093 : list (string * cdesc) := [("limit", (CD true false m87 (Some w53))); ("orderby", (CD true false m54 (Some w55))); ("rparen", (CD true false m6 (Some w69))); ("stmt", (CD true false m88 None)); ("with", (CD true false m77 (Some w21)))].
Definition e1094 : entry := En N_GroupedStatement (Some true) (Some w46) k86 c1093.
Definition c1095 : list (string * cdesc) := [("colon", (CD true false m6 None)); ("leading_label", (CD true false m75 None)); ("limit", (CD true false m87 (Some w53))); ("orderby", (CD true false m54 (Some w55))); ("rparen", (CD true false m6 (Some w69))); ("stmt", (CD true false m88 None)); ("trailing_label", (CD true false m75 None)); ("with", (CD true false m77 (Some w21)))].
Definition e1096 : entry := En N_GroupedStatement (Some true) (Some w46) k851 c1095.
Definition c1097 : list (string * cdesc) := [("condition", (CD true false m3 None)); ("else", (CD true false m695 (Some w608))); ("elseifs", (CD false true m855 None)); ("end_if", (CD false true m4 None)); ("then", (CD true false m695 None))].
Definition e1098 : entry := En N_IfStatement (Some true) (Some w620) k854 c1097.
Definition c1099 : list (string * cdesc) := [("colon", (CD true false m6 None)); ("condition", (CD true false m3 None)); ("else", (CD true false m695 (Some w608))); ("elseifs", (CD false true m855 None)); ("end_if", (CD false true m4 None)); ("leading_label", (CD true false m75 None)); ("then", (CD true false m695 None)); ("trailing_label", (CD true false m75 None))].
Definition e1100 : entry := En N_IfStatement (Some true) (Some w620) k858 c1099.
Definition c1101 : list (string * cdesc) := [("columns", (CD true false m163 (Some w46))); ("input", (CD true false m863 None)); ("into", (CD true false m4 (Some w816))); ("target_name", (CD true false m166 None))].
Definition e1102 : entry := En N_InsertStatement (Some true) (Some w861) k862 c1101.
Definition c1103 : list (string * cdesc) := [("colon", (CD true false m6 None)); ("columns", (CD true false m163 (Some w46))); ("input", (CD true false m863 None)); ("into", (CD true false m4 (Some w816))); ("leading_label", (CD true false m75 None)); ("target_name", (CD true false m166 None)); ("trailing_label", (CD true false m75 None))].
Definition e1104 : entry := En N_InsertStatement (Some true) (Some w861) k866 c1103.
Definition c1105 : list (string * cdesc) := [("clusterby", (CD true false m54 (Some w773))); ("column_group", (CD true false m726 (Some w46))); ("connection", (CD true false m4 (Some w871))); ("connection_name", (CD true false m166 None)); ("data", (CD true false m4 None)); ("files", (CD true false m4 None)); ("from", (CD true false m4 None)); ("from_files", (CD true false m163 None)); ("ident", (CD true false m166 None)); ("into", (CD true false m4 None)); ("options", (CD true false m30 (Some w584))); ("overwrite_partitions", (CD true false m872 None)); ("partitionby", (CD true false m54 (Some w623))); ("with", (CD true false m4 (Some w21))); ("with_partition_columns", (CD true false m776 (Some w21)))].
Definition e1106 : entry := En N_LoadStatement (Some true) (Some w869) k870 c1105.
Definition c1107 : list (string * cdesc) := [("clusterby", (CD true false m54 (Some w773))); ("colon", (CD true false m6 None)); ("column_group", (CD true false m726 (Some w46))); ("connection", (CD true false m4 (Some w871))); ("connection_name", (CD true false m166 None)); ("data", (CD true false m4 None)); ("files", (CD true false m4 None)); ("from", (CD true false m4 None)); ("from_files", (CD true false m163 None)); ("ident", (CD true false m166 None)); ("into", (CD true false m4 None)); ("leading_label", (CD true false m75 None)); ("options", (CD true false m30 (Some w584))); ("overwrite_partitions", (CD true false m872 None)); ("partitionby", (CD true false m54 (Some w623))); ("trailing_label", (CD true false m75 None)); ("with", (CD true false m4 (Some w21))); ("with_partition_columns", (CD true false m776 (Some w21)))].
Definition e1108 : entry := En N_LoadStatement (Some true) (Some w869) k875 c1107.
Definition c1109 : list (string * cdesc) := [("end_loop", (CD false true m4 None)); ("stmts", (CD false true m599 None))].
Definition e1110 : entry := En N_LoopStatement (Some true) (Some w597) k878 c1109.
Definition c1111 : list (string * cdesc) := [("colon", (CD true false m6 None)); ("end_loop", (CD false true m4 None)); ("leading_label", (CD true false m75 None)); ("stmts", (CD false true m599 None)); ("trailing_label", (CD true false m75 None))].
Definition e1112 : entry := En N_LoopStatement (Some true) (Some w597) k881 c1111.
Definition c1113 : list (string * cdesc) := [("using", (CD true false m52 (Some w817)))].
Definition e1114 : entry := En N_RaiseStatement (Some true) (Some w895) k29 c1113.
Definition c1115 : list (string * cdesc) := [("colon", (CD true false m6 None)); ("leading_label", (CD true false m75 None)); ("trailing_label", (CD true false m75 None)); ("using", (CD true false m52 (Some w817)))].
Definition e1116 : entry := En N_RaiseStatement (Some true) (Some w895) k704 c1115.
Definition c1117 : list (string * cdesc) := [("end_repeat", (CD false true m4 None)); ("stmts", (CD false true m599 None)); ("until", (CD true false m52 (Some w607)))].
Definition e1118 : entry := En N_RepeatStatement (Some true) (Some w604) k900 c1117.
Definition c1119 : list (string * cdesc) := [("colon", (CD true false m6 None)); ("end_repeat", (CD false true m4 None)); ("leading_label", (CD true false m75 None)); ("stmts", (CD false true m599 None)); ("trailing_label", (CD true false m75 None)); ("until", (CD true false m52 (Some w607)))].
Definition e1120 : entry := En N_RepeatStatement (Some true) (Some w604) k903 c1119.
Definition c1121 : list (string * cdesc) := [("from", (CD true false m815 None)); ("ident", (CD true false m166 None)); ("on", (CD true false m4 None)); ("resource_type", (CD true false m4 None)); ("roles", (CD false true m3 None))].
Definition e1122 : entry := En N_RevokeStatement (Some true) (Some w906) k907 c1121.
Definition c1123 : list (string * cdesc) := [("colon", (CD true false m6 None)); ("from", (CD true false m815 None)); ("ident", (CD true false m166 None)); ("leading_label", (CD true false m75 None)); ("on", (CD true false m4 None)); ("resource_type", (CD true false m4 None)); ("roles", (CD false true m3 None)); ("trailing_label", (CD true false m75 None))].
Definition e1124 : entry := En N_RevokeStatement (Some true) (Some w906) k910 c1123.
Definition c1125 : list (string * cdesc) := [("as_struct_or_value", (CD false true m4 None)); ("colon", (CD true false m6 None)); ("differential_privacy", (CD true false m120 (Some w21))); ("distinct_or_all", (CD true false m4 (Some w121))); ("exprs", (CD false true m3 None)); ("from", (CD true false m52 (Some w72))); ("groupby", (CD true false m122 (Some w123))); ("having", (CD true false m52 (Some w51))); ("leading_label", (CD true false m75 None)); ("limit", (CD true false m87 (Some w53))); ("orderby", (CD true false m54 (Some w55))); ("qualify", (CD true false m52 (Some w124))); ("trailing_label", (CD true false m75 None)); ("where", (CD true false m52 (Some w125))); ("window", (CD true false m126 (Some w127))); ("with", (CD true false m77 (Some w21)))].
Definition e1126 : entry := En N_SelectStatement (Some true) (Some w280) k915 c1125.
Definition c1127 : list (string * cdesc) := [("by", (CD true false m50 (Some w131))); ("colon", (CD true false m6 None)); ("corresponding", (CD true false m132 (Some w133))); ("distinct_or_all", (CD true false m4 None)); ("leading_label", (CD true false m75 None)); ("left", (CD true false m134 None)); ("limit", (CD true false m87 (Some w53))); ("method", (CD true false m132 (Some w135))); ("orderby", (CD true false m54 (Some w55))); ("right", (CD true false m88 None)); ("trailing_label", (CD true false m75 None)); ("with", (CD true false m77 (Some w21)))].
Definition e1128 : entry := En N_SetOperator (Some true) None k920 c1127.
Definition c1129 : list (string * cdesc) := [("expr", (CD true false m3 None))].
Definition e1130 : entry := En N_SetStatement (Some true) (Some w641) k73 c1129.
Definition c1131 : list (string * cdesc) := [("colon", (CD true false m6 None)); ("expr", (CD true false m3 None)); ("leading_label", (CD true false m75 None)); ("trailing_label", (CD true false m75 None))].
Definition e1132 : entry := En N_SetStatement (Some true) (Some w641) k690 c1131.
Definition e1133 : entry := En N_SingleTokenStatement (Some true) (Some w927) k29 c180.
Definition c1134 : list (string * cdesc) := [("colon", (CD true false m6 None)); ("leading_label", (CD true false m75 None)); ("trailing_label", (CD true false m75 None))].
Definition e1135 : entry := En N_SingleTokenStatement (Some true) (Some w927) k704 c1134.
Definition c1136 : list (string * cdesc) := [("transaction", (CD true false m4 (Some w933)))].
Definition e1137 : entry := En N_TransactionStatement (Some true) (Some w932) k29 c1136.
Definition c1138 : list (string * cdesc) := [("colon", (CD true false m6 None)); ("leading_label", (CD true false m75 None)); ("trailing_label", (CD true false m75 None)); ("transaction", (CD true false m4 (Some w933)))].
Definition e1139 : entry := En N_TransactionStatement (Some true) (Some w932) k704 c1138.
Definition c1140 : list (string * cdesc) := [("table", (CD true false m4 None)); ("table_name", (CD true false m166 None))].
Definition e1141 : entry := En N_TruncateStatement (Some true) (Some w938) k939 c1140.
Definition c1142 : list (string * cdesc) := [("colon", (CD true false m6 None)); ("leading_label", (CD true false m75 None)); ("table", (CD true false m4 None)); ("table_name", (CD true false m166 None)); ("trailing_label", (CD true false m75 None))].
Definition e1143 : entry := En N_TruncateStatement (Some true) (Some w938) k942 c1142.
Definition c1144 : list (string * cdesc) := [("ident", (CD true false m166 None)); ("if_not_exists", (CD false true m4 None)); ("what", (CD true false m4 None))].
Definition e1145 : entry := En N_UndropStatement (Some true) (Some w945) k640 c1144.
Definition c1146 : list (string * cdesc) := [("colon", (CD true false m6 None)); ("ident", (CD true false m166 None)); ("if_not_exists", (CD false true m4 None)); ("leading_label", (CD true false m75 None)); ("trailing_label", (CD true false m75 None)); ("what", (CD true false m4 None))].
Definition e1147 : entry := En N_UndropStatement (Some true) (Some w945) k644 c1146.
Definition c1148 : list (string * cdesc) := [("from", (CD true false m52 (Some w72))); ("set", (CD true false m815 None)); ("table_name", (CD true false m74 None)); ("where", (CD true false m52 (Some w125)))].
Definition e1149 : entry := En N_UpdateStatement (Some true) (Some w950) k951 c1148.
Definition c1150 : list (string * cdesc) := [("colon", (CD true false m6 None)); ("from", (CD true false m52 (Some w72))); ("leading_label", (CD true false m75 None)); ("set", (CD true false m815 None)); ("table_name", (CD true false m74 None)); ("trailing_label", (CD true false m75 None)); ("where", (CD true false m52 (Some w125)))].
Definition e1151 : entry := En N_UpdateStatement (Some true) (Some w950) k954 c1150.
Definition c1152 : list (string * cdesc) := [("condition", (CD true false m3 None)); ("do", (CD true false m695 None)); ("end_while", (CD false true m4 None))].
Definition e1153 : entry := En N_WhileStatement (Some true) (Some w957) k958 c1152.
Definition c1154 : list (string * cdesc) := [("colon", (CD true false m6 None)); ("condition", (CD true false m3 None)); ("do", (CD true false m695 None)); ("end_while", (CD false true m4 None)); ("leading_label", (CD true false m75 None)); ("trailing_label", (CD true false m75 None))].
Definition e1155 : entry := En N_WhileStatement (Some true) (Some w957) k961 c1154.
Definition d1156 : desc := [e966; e968; e970; e972; e974; e976; e978; e980; e981; e982; e983; e984; e986; e988; e990; e992; e994; e996; e998; e1000; e1002; e1004; e1006; e1008; e1010; e1012; e1014; e1016; e1018; e1020; e1022; e1024; e1026; e1028; e1030; e1032; e1034; e1036; e1038; e1040; e1042; e1044; e1046; e1048; e1050; e1052; e1054; e1056; e1058; e1060; e1062; e1064; e1066; e1068; e1070; e1072; e1074; e1076; e1078; e1080; e1082; e1084; e1086; e1088; e840; e842; e1090; e1092; e1094; e1096; e1098; e1100; e1102; e1104; e1106; e1108; e1110; e1112; e888; e891; e414; e894; e1114; e1116; e1118; e1120; e1122; e1124; e418; e1126; e420; e1128; e1130; e1132; e1133; e1135; e1137; e1139; e1141; e1143; e1145; e1147; e1149; e1151; e1153; e1155].
Definition c1157 : list (string * cdesc) := [("alias", (CD true false m75 None)); ("as", (CD true false m4 (Some w5))); ("for_system_time_as_of", (CD true false m8 (Some w9))); ("left", (CD true false m213 None)); ("match_recognize", (CD true false m11 (Some w12))); ("null_order", (CD false true m4 None)); ("order", (CD true false m4 (Some w13))); ("pivot", (CD true false m14 (Some w15))); ("right", (CD true false m3 None)); ("rparen", (CD true false m6 None)); ("tablesample", (CD true false m16 (Some w17))); ("unpivot", (CD true false m18 (Some w19))); ("with_offset", (CD true false m20 (Some w21)))].
Definition e1158 : entry := En N_AccessOperator (Some true) (Some w1) k2 c1157.
Definition c1159 : list (string * cdesc) := [("alias", (CD true false m75 None)); ("and", (CD true false m4 None)); ("as", (CD true false m4 (Some w5))); ("for_system_time_as_of", (CD true false m8 (Some w9))); ("left", (CD true false m10 None)); ("match_recognize", (CD true false m11 (Some w12))); ("not", (CD true false m4 (Some w36))); ("null_order", (CD false true m4 None)); ("order", (CD true false m4 (Some w13))); ("pivot", (CD true false m14 (Some w15))); ("right_max", (CD true false m3 None)); ("right_min", (CD true false m3 None)); ("tablesample", (CD true false m16 (Some w17))); ("unpivot", (CD true false m18 (Some w19))); ("with_offset", (CD true false m20 (Some w21)))].
Definition e1160 : entry := En N_BetweenOperator (Some true) (Some w0) k35 c1159.
Definition c1161 : list (string * cdesc) := [("alias", (CD true false m75 None)); ("as", (CD true false m4 (Some w5))); ("for_system_time_as_of", (CD true false m8 (Some w9))); ("left", (CD true false m10 None)); ("match_recognize", (CD true false m11 (Some w12))); ("not", (CD true false m4 (Some w36))); ("null_order", (CD false true m4 None)); ("order", (CD true false m4 (Some w13))); ("pivot", (CD true false m14 (Some w15))); ("quantifier", (CD true false m4 (Some w41))); ("right", (CD true false m3 None)); ("tablesample", (CD true false m16 (Some w17))); ("unpivot", (CD true false m18 (Some w19))); ("with_offset", (CD true false m20 (Some w21)))].
Definition e1162 : entry := En N_BinaryOperator (Some true) (Some w39) k40 c1161.
Definition c1163 : list (string * cdesc) := [("alias", (CD true false m75 None)); ("args", (CD false true m48 None)); ("as", (CD true false m4 (Some w5))); ("distinct", (CD true false m4 (Some w49))); ("for_system_time_as_of", (CD true false m8 (Some w9))); ("func", (CD true false m213 None)); ("having", (CD true false m50 (Some w51))); ("ignore_nulls", (CD false true m4 None)); ("limit", (CD true false m52 (Some w53))); ("match_recognize", (CD true false m11 (Some w12))); ("null_order", (CD false true m4 None)); ("order", (CD true false m4 (Some w13))); ("orderby", (CD true false m54 (Some w55))); ("over", (CD true false m56 (Some w57))); ("pivot", (CD true false m14 (Some w15))); ("rparen", (CD true false m6 None)); ("tablesample", (CD true false m16 (Some w17))); ("unpivot", (CD true false m18 (Some w19))); ("with_offset", (CD true false m20 (Some w21)))].
Definition e1164 : entry := En N_CallingTableFunction (Some true) (Some w46) k47 c1163.
Definition m1165 : N := 8211431900497976322094904967765997289473%N.
Definition c1166 : list (string * cdesc) := [("alias", (CD true false m75 None)); ("and", (CD true false m4 None)); ("args", (CD false true m48 None)); ("as", (CD true false m4 (Some w5))); ("distinct", (CD true false m4 (Some w49))); ("for_system_time_as_of", (CD true false m8 (Some w9))); ("from", (CD true false m4 None)); ("func", (CD true false m187 (Some w188))); ("having", (CD true false m50 (Some w51))); ("ignore_nulls", (CD false true m4 None)); ("left", (CD true false m10 None)); ("limit", (CD true false m52 (Some w53))); ("match_recognize", (CD true false m11 (Some w12))); ("not", (CD true false m4 (Some w36))); ("null_order", (CD false true m4 None)); ("order", (CD true false m4 (Some w13))); ("orderby", (CD true false m54 (Some w55))); ("over", (CD true false m56 (Some w57))); ("pivot", (CD true false m14 (Some w15))); ("quantifier", (CD true false m4 (Some w41))); ("right", (CD true false m1165 None)); ("right_max", (CD true false m3 None)); ("right_min", (CD true false m3 None)); ("rparen", (CD true false m6 None)); ("tablesample", (CD true false m16 (Some w17))); ("unpivot", (CD true false m18 (Some w19))); ("with_offset", (CD true false m20 (Some w21)))].
Definition e1167 : entry := En N_CallingUnnest (Some true) (Some w188) k29 c1166.
Definition c1168 : list (string * cdesc) := [("alias", (CD true false m75 None)); ("as", (CD true false m4 (Some w5))); ("for_system_time_as_of", (CD true false m8 (Some w9))); ("left", (CD true false m213 None)); ("match_recognize", (CD true false m11 (Some w12))); ("null_order", (CD false true m4 None)); ("order", (CD true false m4 (Some w13))); ("pivot", (CD true false m14 (Some w15))); ("right", (CD true false m65 None)); ("tablesample", (CD true false m16 (Some w17))); ("unpivot", (CD true false m18 (Some w19))); ("with_offset", (CD true false m20 (Some w21)))].
Definition e1169 : entry := En N_DotOperator (Some true) (Some w64) k40 c1168.
Definition e1170 : entry := En N_FunctionChain (Some true) (Some w64) k40 c1168.
Definition c1171 : list (string * cdesc) := [("alias", (CD true false m75 None)); ("as", (CD true false m4 (Some w5))); ("expr", (CD true false m74 None)); ("for_system_time_as_of", (CD true false m8 (Some w9))); ("match_recognize", (CD true false m11 (Some w12))); ("pivot", (CD true false m14 (Some w15))); ("rparen", (CD true false m6 None)); ("tablesample", (CD true false m16 (Some w17))); ("unpivot", (CD true false m18 (Some w19))); ("with_offset", (CD true false m20 (Some w21)))].
Definition e1172 : entry := En N_GroupedExpr (Some true) (Some w46) k82 c1171.
Definition c1173 : list (string * cdesc) := [("alias", (CD true false m75 None)); ("as", (CD true false m4 (Some w5))); ("for_system_time_as_of", (CD true false m8 (Some w9))); ("match_recognize", (CD true false m11 (Some w12))); ("pivot", (CD true false m14 (Some w15))); ("rparen", (CD true false m6 (Some w69))); ("stmt", (CD true false m88 None)); ("tablesample", (CD true false m16 (Some w17))); ("unpivot", (CD true false m18 (Some w19))); ("with_offset", (CD true false m20 (Some w21)))].
Definition e1174 : entry := En N_GroupedStatement (Some true) (Some w46) k86 c1173.
Definition c1175 : list (string * cdesc) := [("alias", (CD true false m75 None)); ("as", (CD true false m4 (Some w5))); ("for_system_time_as_of", (CD true false m8 (Some w9))); ("match_recognize", (CD true false m11 (Some w12))); ("null_order", (CD false true m4 None)); ("order", (CD true false m4 (Some w13))); ("pivot", (CD true false m14 (Some w15))); ("tablesample", (CD true false m16 (Some w17))); ("unpivot", (CD true false m18 (Some w19))); ("with_offset", (CD true false m20 (Some w21)))].
Definition e1176 : entry := En N_Identifier (Some true) None k29 c1175.
Definition c1177 : list (string * cdesc) := [("alias", (CD true false m75 None)); ("as", (CD true false m4 (Some w5))); ("for_system_time_as_of", (CD true false m8 (Some w9))); ("left", (CD true false m10 None)); ("match_recognize", (CD true false m11 (Some w12))); ("not", (CD true false m4 (Some w36))); ("null_order", (CD false true m4 None)); ("order", (CD true false m4 (Some w13))); ("pivot", (CD true false m14 (Some w15))); ("right", (CD true false m94 None)); ("tablesample", (CD true false m16 (Some w17))); ("unpivot", (CD true false m18 (Some w19))); ("with_offset", (CD true false m20 (Some w21)))].
Definition e1178 : entry := En N_InOperator (Some true) (Some w93) k40 c1177.
Definition c1179 : list (string * cdesc) := [("alias", (CD true false m75 None)); ("as", (CD true false m4 (Some w5))); ("distinct", (CD true false m4 (Some w49))); ("for_system_time_as_of", (CD true false m8 (Some w9))); ("from", (CD true false m4 None)); ("left", (CD true false m10 None)); ("match_recognize", (CD true false m11 (Some w12))); ("not", (CD true false m4 (Some w36))); ("null_order", (CD false true m4 None)); ("order", (CD true false m4 (Some w13))); ("pivot", (CD true false m14 (Some w15))); ("right", (CD true false m3 None)); ("tablesample", (CD true false m16 (Some w17))); ("unpivot", (CD true false m18 (Some w19))); ("with_offset", (CD true false m20 (Some w21)))].
Definition e1180 : entry := En N_IsDistinctFromOperator (Some true) (Some w101) k102 c1179.
Definition w1181 : list string := ["CROSS"; "FULL"; "INNER"; "LEFT"; "RIGHT"].
Definition w1182 : list string := ["OUTER"].
Definition m1183 : N := 40604462605178772430354345623553%N.
Definition c1184 : list (string * cdesc) := [("join_type", (CD true false m4 (Some w1181))); ("left", (CD true false m74 None)); ("on", (CD true false m52 (Some w808))); ("outer", (CD true false m4 (Some w1182))); ("right", (CD true false m1183 None)); ("using", (CD true false m3 None))].
Definition e1185 : entry := En N_JoinOperator (Some true) None k40 c1184.
Definition c1186 : list (string * cdesc) := [("alias", (CD true false m75 None)); ("as", (CD true false m4 (Some w5))); ("for_system_time_as_of", (CD true false m8 (Some w9))); ("left", (CD true false m88 None)); ("match_recognize", (CD true false m11 (Some w12))); ("pivot", (CD true false m14 (Some w15))); ("right", (CD true false m112 None)); ("semicolon", (CD true false m6 (Some w76))); ("tablesample", (CD true false m16 (Some w17))); ("unpivot", (CD true false m18 (Some w19))); ("with_offset", (CD true false m20 (Some w21)))].
Definition e1187 : entry := En N_PipeStatement (Some true) (Some w111) k40 c1186.
Definition d1188 : desc := [e1158; e1160; e1162; e1164; e1167; e1169; e1170; e1172; e1174; e1176; e1178; e1180; e1185; e107; e1187].
Definition d1189 : desc := [e1158; e1160; e1162; e1164; e1167; e1169; e1170; e1172; e1174; e1176; e1178; e1180; e107; e1187].
Definition w1190 : list string := ["COLLATE"].
Definition w1191 : list string := ["PRIMARY"].
Definition w1192 : list string := ["<"].
Definition c1193 : list (string * cdesc) := [("collate", (CD true false m52 (Some w1190))); ("constraint", (CD true false m52 (Some w164))); ("enforced", (CD true false m132 (Some w165))); ("primarykey", (CD true false m50 (Some w1191))); ("references", (CD true false m52 (Some w167))); ("type_declaration", (CD true false m726 (Some w1192)))].
Definition e1194 : entry := En N_Type (Some true) (Some w139) k29 c1193.
Definition d1195 : desc := [e1194].
Definition m1196 : N := 295147905179352825856%N.
Definition c1197 : list (string * cdesc) := [("collate", (CD true false m52 (Some w1190))); ("constraint", (CD true false m52 (Some w164))); ("enforced", (CD true false m132 (Some w165))); ("primarykey", (CD true false m50 (Some w1191))); ("references", (CD true false m52 (Some w167))); ("type_declaration", (CD true false m1196 (Some w1192)))].
Definition e1198 : entry := En N_Type (Some true) (Some w116) k29 c1197.
Definition d1199 : desc := [e1198].
Definition e1200 : entry := En N_Type (Some true) (Some w26) k29 c1197.
Definition d1201 : desc := [e1200].
Definition m1202 : N := 885443715538058477568%N.
Definition c1203 : list (string * cdesc) := [("collate", (CD true false m52 (Some w1190))); ("constraint", (CD true false m52 (Some w164))); ("enforced", (CD true false m132 (Some w165))); ("parameter", (CD true false m163 (Some w46))); ("primarykey", (CD true false m50 (Some w1191))); ("references", (CD true false m52 (Some w167))); ("type", (CD true false m4 None)); ("type_declaration", (CD true false m1202 (Some w1192)))].
Definition e1204 : entry := En N_Type (Some true) None k29 c1203.
Definition d1205 : desc := [e1204].
Definition c1206 : list (string * cdesc) := [("collate", (CD true false m52 (Some w1190))); ("constraint", (CD true false m52 (Some w164))); ("default", (CD true false m52 (Some w618))); ("enforced", (CD true false m132 (Some w165))); ("not_null", (CD false true m4 None)); ("options", (CD true false m30 (Some w584))); ("parameter", (CD true false m163 (Some w46))); ("primarykey", (CD true false m50 (Some w1191))); ("references", (CD true false m52 (Some w167))); ("type", (CD true false m4 None)); ("type_declaration", (CD true false m1202 (Some w1192)))].
Definition e1207 : entry := En N_Type (Some true) None k29 c1206.
Definition d1208 : desc := [e1207].
Definition c1209 : list (string * cdesc) := [("aggregate", (CD true false m50 (Some w36))); ("collate", (CD true false m52 (Some w1190))); ("constraint", (CD true false m52 (Some w164))); ("enforced", (CD true false m132 (Some w165))); ("parameter", (CD true false m163 (Some w46))); ("primarykey", (CD true false m50 (Some w1191))); ("references", (CD true false m52 (Some w167))); ("type", (CD true false m4 None)); ("type_declaration", (CD true false m1202 (Some w1192)))].
Definition e1210 : entry := En N_Type (Some true) None k29 c1209.
Definition d1211 : desc := [e1210].
Definition m1212 : N := 11150372599265311570767859136324180752990208%N.
Definition w1213 : list string := ["RANGE"; "ROWS"].
Definition c1214 : list (string * cdesc) := [("frame", (CD true false m1212 (Some w1213))); ("name", (CD true false m75 None)); ("orderby", (CD true false m54 (Some w55))); ("partitionby", (CD true false m54 (Some w623))); ("rparen", (CD true false m6 None))].
Definition e1215 : entry := En N_WindowSpecification (Some true) (Some w46) k68 c1214.
Definition d1216 : desc := [e403; e1215].
Definition c1217 : list (string * cdesc) := [("next_keyword", (CD true false m52 (Some w871)))].
Definition e1218 : entry := En N_KeywordSequence (Some true) (Some w21) k182 c1217.
Definition d1219 : desc := [e1218].
Definition c1220 : list (string * cdesc) := [("next_keyword", (CD true false m52 None))].
Definition e1221 : entry := En N_KeywordSequence (Some true) (Some w21) k182 c1220.
Definition d1222 : desc := [e1221].
Definition k1223 : list string := ["queries"].
Definition m1224 : N := 713623846352979940529142984724747568191373312%N.
Definition w1225 : list string := ["RECURSIVE"].
Definition c1226 : list (string * cdesc) := [("queries", (CD false true m1224 None)); ("recursive", (CD true false m4 (Some w1225)))].
Definition e1227 : entry := En N_WithClause (Some true) (Some w21) k1223 c1226.
Definition d1228 : desc := [e1227].
Definition w1229 : list string := ["("; "FROM"; "SELECT"; "|>"].
Definition k1230 : list string := ["window_exprs"].
Definition m1231 : N := 5575186299632655785383929568162090376495104%N.
Definition c1232 : list (string * cdesc) := [("window_exprs", (CD false true m1231 None))].
Definition e1233 : entry := En N_WindowClause (Some true) (Some w127) k1230 c1232.
Definition d1234 : desc := [e1233].
Definition k1235 : list string := ["by"; "exprs"].
Definition c1236 : list (string * cdesc) := [("by", (CD true false m4 None)); ("exprs", (CD false true m3 None))].
Definition e1237 : entry := En N_XXXByExprs (Some true) (Some w55) k1235 c1236.
Definition d1238 : desc := [e1237].
Definition e1239 : entry := En N_XXXByExprs (Some true) (Some w623) k1235 c1236.
Definition d1240 : desc := [e1239].
Definition e1241 : entry := En N_XXXByExprs (Some true) (Some w773) k1235 c1236.
Definition d1242 : desc := [e1241].
Definition k1243 : list string := ["by"].
Definition c1244 : list (string * cdesc) := [("by", (CD true false m4 None)); ("exprs", (CD false true m3 None)); ("how", (CD false true m4 None))].
Definition e1245 : entry := En N_GroupByExprs (Some true) (Some w123) k1243 c1244.
Definition d1246 : desc := [e1245].
Definition k1247 : list string := ["expr"; "percent"; "rparen"].
Definition c1248 : list (string * cdesc) := [("expr", (CD true false m3 None)); ("percent", (CD true false m4 None)); ("rparen", (CD true false m6 None))].
Definition e1249 : entry := En N_TableSampleRatio (Some true) None k1247 c1248.
Definition d1250 : desc := [e1249].
Definition w1251 : list string := ["("; "EXCLUDE"; "INCLUDE"].
Definition k1252 : list string := ["exprs"; "for"; "in"; "rparen"].
Definition c1253 : list (string * cdesc) := [("exprs", (CD false true m3 None)); ("for", (CD true false m52 None)); ("in", (CD true false m30 None)); ("rparen", (CD true false m6 None))].
Definition e1254 : entry := En N_PivotConfig (Some true) (Some w1251) k1252 c1253.
Definition d1255 : desc := [e1254].
Definition e1256 : entry := En N_PivotConfig (Some true) None k1252 c1253.
Definition d1257 : desc := [e1256].
Definition k1258 : list string := ["expr"; "for"; "in"; "rparen"].
Definition m1259 : N := 8211431900497976322076453720092593258497%N.
Definition c1260 : list (string * cdesc) := [("expr", (CD true false m1259 None)); ("for", (CD true false m52 None)); ("in", (CD true false m30 None)); ("rparen", (CD true false m6 None))].
Definition e1261 : entry := En N_UnpivotConfig (Some true) (Some w46) k1258 c1260.
Definition d1262 : desc := [e1261].
Definition e1263 : entry := En N_UnpivotConfig (Some true) None k1258 c1260.
Definition d1264 : desc := [e1263].
Definition k1265 : list string := ["config"].
Definition m1266 : N := 4951760157141521099596496896%N.
Definition c1267 : list (string * cdesc) := [("alias", (CD true false m75 None)); ("as", (CD true false m4 (Some w5))); ("config", (CD true false m1266 (Some w1251)))].
Definition e1268 : entry := En N_MatchRecognizeClause (Some true) (Some w12) k1265 c1267.
Definition d1269 : desc := [e1268].
Definition c1270 : list (string * cdesc) := [("alias", (CD true false m75 None)); ("as", (CD true false m4 (Some w5))); ("config", (CD true false m1266 None))].
Definition e1271 : entry := En N_MatchRecognizeClause (Some true) (Some w12) k1265 c1270.
Definition d1272 : desc := [e1271].
Definition w1273 : list string := ["DEFINE"].
Definition w1274 : list string := ["MEASURES"].
Definition m1275 : N := 10141204801825835211973625643008%N.
Definition w1276 : list string := ["PATTERN"].
Definition w1277 : list string := ["AFTER"].
Definition c1278 : list (string * cdesc) := [("define", (CD true false m815 (Some w1273))); ("measures", (CD true false m815 (Some w1274))); ("options", (CD true false m30 (Some w584))); ("orderby", (CD true false m54 (Some w55))); ("partitionby", (CD true false m54 (Some w623))); ("pattern", (CD true false m1275 (Some w1276))); ("rparen", (CD true false m6 None)); ("skip_rule", (CD true false m50 (Some w1277)))].
Definition e1279 : entry := En N_MatchRecognizeConfig (Some true) (Some w1251) k68 c1278.
Definition d1280 : desc := [e1279].
Definition e1281 : entry := En N_MatchRecognizeConfig (Some true) None k68 c1278.
Definition d1282 : desc := [e1281].
Definition c1283 : list (string * cdesc) := [("next_keyword", (CD true false m132 None))].
Definition e1284 : entry := En N_KeywordSequence (Some true) (Some w131) k182 c1283.
Definition d1285 : desc := [e1284].
Definition k1286 : list string := ["pattern"].
Definition m1287 : N := 5070602400986704582281651027968%N.
Definition c1288 : list (string * cdesc) := [("pattern", (CD true false m1287 None))].
Definition e1289 : entry := En N_PatternClause (Some true) (Some w1276) k1286 c1288.
Definition d1290 : desc := [e1289].
Definition k1291 : list string := ["patterns"; "rparen"].
Definition m1292 : N := 5387515051043761932655826829312%N.
Definition c1293 : list (string * cdesc) := [("patterns", (CD false true m1292 None)); ("rparen", (CD true false m6 (Some w69)))].
Definition e1294 : entry := En N_GroupedPattern (Some true) (Some w46) k1291 c1293.
Definition d1295 : desc := [e1294].
Definition k1296 : list string := ["patterns"; "rparen"; "suffixes"].
Definition m1297 : N := 2658476273979435397478038067811975168%N.
Definition c1298 : list (string * cdesc) := [("patterns", (CD false true m1292 None)); ("rparen", (CD true false m6 (Some w69))); ("suffixes", (CD false true m1297 None))].
Definition e1299 : entry := En N_GroupedPattern (Some true) (Some w46) k1296 c1298.
Definition k1300 : list string := ["suffixes"].
Definition c1301 : list (string * cdesc) := [("suffixes", (CD false true m1297 None))].
Definition e1302 : entry := En N_Pattern (Some true) None k1300 c1301.
Definition d1303 : desc := [e1299; e1302].
Definition w1304 : list string := ["{"].
Definition k1305 : list string := ["rbrace"].
Definition m1306 : N := 79228162514264337593543950336%N.
Definition c1307 : list (string * cdesc) := [("comma", (CD true false m6 (Some w7))); ("max", (CD true false m1306 None)); ("min", (CD true false m1306 None)); ("rbrace", (CD true false m6 None))].
Definition e1308 : entry := En N_PatternQuantifier (Some true) (Some w1304) k1305 c1307.
Definition d1309 : desc := [e1308].
Definition w1310 : list string := ["CORRESPONDING"].
Definition e1311 : entry := En N_Keyword (Some true) (Some w1310) k29 c180.
Definition m1312 : N := 41320706725109395619840%N.
Definition c1313 : list (string * cdesc) := [("next_keyword", (CD true false m1312 None))].
Definition e1314 : entry := En N_KeywordSequence (Some true) (Some w133) k182 c1313.
Definition d1315 : desc := [e1311; e1314].
Definition w1316 : list string := ["("; "."; "UNNEST"; "["].
Definition m1317 : N := 72057594037927936%N.
Definition m1318 : N := 5487053169135434226035982172992586121217%N.
Definition m1319 : N := 8209976718738523714925506910874371260417%N.
Definition c1320 : list (string * cdesc) := [("args", (CD false true m1317 None)); ("distinct", (CD true false m4 (Some w49))); ("func", (CD true false m1318 (Some w1316))); ("having", (CD true false m50 (Some w51))); ("ignore_nulls", (CD false true m4 None)); ("left", (CD true false m1318 (Some w1316))); ("limit", (CD true false m52 (Some w53))); ("null_order", (CD false true m4 None)); ("order", (CD true false m4 (Some w13))); ("orderby", (CD true false m54 (Some w55))); ("right", (CD true false m1319 None)); ("rparen", (CD true false m6 None))].
Definition e1321 : entry := En N_CallingUnnest (Some true) (Some w1316) k29 c1320.
Definition d1322 : desc := [e1321].
Definition c1323 : list (string * cdesc) := [("alias", (CD true false m75 None)); ("args", (CD false true m1317 None)); ("as", (CD true false m4 (Some w5))); ("distinct", (CD true false m4 (Some w49))); ("func", (CD true false m1318 (Some w1316))); ("having", (CD true false m50 (Some w51))); ("ignore_nulls", (CD false true m4 None)); ("left", (CD true false m1318 (Some w1316))); ("limit", (CD true false m52 (Some w53))); ("null_order", (CD false true m4 None)); ("order", (CD true false m4 (Some w13))); ("orderby", (CD true false m54 (Some w55))); ("right", (CD true false m1319 None)); ("rparen", (CD true false m6 None))].
Definition e1324 : entry := En N_CallingUnnest (Some true) (Some w1316) k29 c1323.
Definition d1325 : desc := [e1324].
Definition m1326 : N := 8209976718738552729145177802712055185409%N.
Definition m1327 : N := 8211307244808552278780328974617613598721%N.
Definition c1328 : list (string * cdesc) := [("and", (CD true false m4 None)); ("args", (CD false true m1317 None)); ("distinct", (CD true false m4 (Some w49))); ("from", (CD true false m4 None)); ("func", (CD true false m187 (Some w188))); ("having", (CD true false m50 (Some w51))); ("ignore_nulls", (CD false true m4 None)); ("left", (CD true false m1326 None)); ("limit", (CD true false m52 (Some w53))); ("not", (CD true false m4 (Some w36))); ("null_order", (CD false true m4 None)); ("order", (CD true false m4 (Some w13))); ("orderby", (CD true false m54 (Some w55))); ("over", (CD true false m56 (Some w57))); ("quantifier", (CD true false m4 (Some w41))); ("right", (CD true false m1327 None)); ("right_max", (CD true false m1319 None)); ("right_min", (CD true false m1319 None)); ("rparen", (CD true false m6 None))].
Definition e1329 : entry := En N_CallingUnnest (Some true) (Some w188) k29 c1328.
Definition d1330 : desc := [e1329].
Definition c1331 : list (string * cdesc) := [("alias", (CD true false m75 None)); ("and", (CD true false m4 None)); ("args", (CD false true m1317 None)); ("as", (CD true false m4 (Some w5))); ("distinct", (CD true false m4 (Some w49))); ("from", (CD true false m4 None)); ("func", (CD true false m187 (Some w188))); ("having", (CD true false m50 (Some w51))); ("ignore_nulls", (CD false true m4 None)); ("left", (CD true false m1326 None)); ("limit", (CD true false m52 (Some w53))); ("not", (CD true false m4 (Some w36))); ("null_order", (CD false true m4 None)); ("order", (CD true false m4 (Some w13))); ("orderby", (CD true false m54 (Some w55))); ("over", (CD true false m56 (Some w57))); ("quantifier", (CD true false m4 (Some w41))); ("right", (CD true false m1327 None)); ("right_max", (CD true false m1319 None)); ("right_min", (CD true false m1319 None)); ("rparen", (CD true false m6 None))].
Definition e1332 : entry := En N_CallingUnnest (Some true) (Some w188) k29 c1331.
Definition d1333 : desc := [e1332].
Definition m1334 : N := 72057602627862528%N.
Definition m1335 : N := 8211307244848166360000567655266899361793%N.
Definition m1336 : N := 8211348783183420557548931171177923772417%N.
Definition m1337 : N := 8211307244808552278743435486470127386625%N.
Definition c1338 : list (string * cdesc) := [("and", (CD true false m4 None)); ("args", (CD false true m1334 None)); ("distinct", (CD true false m4 (Some w49))); ("from", (CD true false m4 None)); ("func", (CD true false m187 (Some w188))); ("having", (CD true false m50 (Some w51))); ("ignore_nulls", (CD false true m4 None)); ("left", (CD true false m1335 None)); ("limit", (CD true false m52 (Some w53))); ("not", (CD true false m4 (Some w36))); ("null_order", (CD false true m4 None)); ("order", (CD true false m4 (Some w13))); ("orderby", (CD true false m54 (Some w55))); ("over", (CD true false m56 (Some w57))); ("quantifier", (CD true false m4 (Some w41))); ("right", (CD true false m1336 None)); ("right_max", (CD true false m1337 None)); ("right_min", (CD true false m1337 None)); ("rparen", (CD true false m6 None))].
Definition e1339 : entry := En N_CallingUnnest (Some true) (Some w188) k29 c1338.
Definition m1340 : N := 41538374868278621028243970633760768%N.
Definition c1341 : list (string * cdesc) := [("rparen", (CD true false m6 (Some w69))); ("stmt", (CD true false m1340 None))].
Definition e1342 : entry := En N_GroupedStatement (Some true) (Some w46) k86 c1341.
Definition d1343 : desc := [e1339; e1342].
Definition c1344 : list (string * cdesc) := [("alias", (CD true false m75 None)); ("and", (CD true false m4 None)); ("args", (CD false true m1334 None)); ("as", (CD true false m4 (Some w5))); ("distinct", (CD true false m4 (Some w49))); ("from", (CD true false m4 None)); ("func", (CD true false m187 (Some w188))); ("having", (CD true false m50 (Some w51))); ("ignore_nulls", (CD false true m4 None)); ("left", (CD true false m1335 None)); ("limit", (CD true false m52 (Some w53))); ("not", (CD true false m4 (Some w36))); ("null_order", (CD false true m4 None)); ("order", (CD true false m4 (Some w13))); ("orderby", (CD true false m54 (Some w55))); ("over", (CD true false m56 (Some w57))); ("quantifier", (CD true false m4 (Some w41))); ("right", (CD true false m1336 None)); ("right_max", (CD true false m1337 None)); ("right_min", (CD true false m1337 None)); ("rparen", (CD true false m6 None))].
Definition e1345 : entry := En N_CallingUnnest (Some true) (Some w188) k29 c1344.
Definition c1346 : list (string * cdesc) := [("alias", (CD true false m75 None)); ("as", (CD true false m4 (Some w5))); ("rparen", (CD true false m6 (Some w69))); ("stmt", (CD true false m1340 None))].
Definition e1347 : entry := En N_GroupedStatement (Some true) (Some w46) k86 c1346.
Definition d1348 : desc := [e1345; e1347].
Definition m1349 : N := 8211348783183420557512109740633065422849%N.
Definition m1350 : N := 8211348783223034638769169851827209535489%N.
Definition m1351 : N := 8211348783183420557512037683030437560321%N.
Definition c1352 : list (string * cdesc) := [("and", (CD true false m4 None)); ("args", (CD false true m1349 None)); ("distinct", (CD true false m4 (Some w49))); ("from", (CD true false m4 None)); ("func", (CD true false m187 (Some w188))); ("having", (CD true false m50 (Some w51))); ("ignore_nulls", (CD false true m4 None)); ("left", (CD true false m1350 None)); ("limit", (CD true false m52 (Some w53))); ("not", (CD true false m4 (Some w36))); ("null_order", (CD false true m4 None)); ("order", (CD true false m4 (Some w13))); ("orderby", (CD true false m54 (Some w55))); ("over", (CD true false m56 (Some w57))); ("quantifier", (CD true false m4 (Some w41))); ("right", (CD true false m1336 None)); ("right_max", (CD true false m1351 None)); ("right_min", (CD true false m1351 None)); ("rparen", (CD true false m6 None))].
Definition e1353 : entry := En N_CallingUnnest (Some true) (Some w188) k29 c1352.
Definition m1354 : N := 41578939687486071943044454812745728%N.
Definition c1355 : list (string * cdesc) := [("rparen", (CD true false m6 (Some w69))); ("stmt", (CD true false m1354 None))].
Definition e1356 : entry := En N_GroupedStatement (Some true) (Some w46) k86 c1355.
Definition m1357 : N := 41538374868278768602196560310173696%N.
Definition c1358 : list (string * cdesc) := [("left", (CD true false m1357 None)); ("right", (CD true false m4 (Some w49))); ("semicolon", (CD true false m6 (Some w76)))].
Definition e1359 : entry := En N_PipeStatement (Some true) (Some w111) k40 c1358.
Definition d1360 : desc := [e1353; e1356; e1359].
Definition c1361 : list (string * cdesc) := [("alias", (CD true false m75 None)); ("and", (CD true false m4 None)); ("args", (CD false true m1349 None)); ("as", (CD true false m4 (Some w5))); ("distinct", (CD true false m4 (Some w49))); ("from", (CD true false m4 None)); ("func", (CD true false m187 (Some w188))); ("having", (CD true false m50 (Some w51))); ("ignore_nulls", (CD false true m4 None)); ("left", (CD true false m1350 None)); ("limit", (CD true false m52 (Some w53))); ("not", (CD true false m4 (Some w36))); ("null_order", (CD false true m4 None)); ("order", (CD true false m4 (Some w13))); ("orderby", (CD true false m54 (Some w55))); ("over", (CD true false m56 (Some w57))); ("quantifier", (CD true false m4 (Some w41))); ("right", (CD true false m1336 None)); ("right_max", (CD true false m1351 None)); ("right_min", (CD true false m1351 None)); ("rparen", (CD true false m6 None))].
Definition e1362 : entry := En N_CallingUnnest (Some true) (Some w188) k29 c1361.
Definition c1363 : list (string * cdesc) := [("alias", (CD true false m75 None)); ("as", (CD true false m4 (Some w5))); ("rparen", (CD true false m6 (Some w69))); ("stmt", (CD true false m1354 None))].
Definition e1364 : entry := En N_GroupedStatement (Some true) (Some w46) k86 c1363.
Definition c1365 : list (string * cdesc) := [("alias", (CD true false m75 None)); ("as", (CD true false m4 (Some w5))); ("left", (CD true false m1357 None)); ("right", (CD true false m4 (Some w49))); ("semicolon", (CD true false m6 (Some w76)))].
Definition e1366 : entry := En N_PipeStatement (Some true) (Some w111) k40 c1365.
Definition d1367 : desc := [e1362; e1364; e1366].
Definition c1368 : list (string * cdesc) := [("config", (CD true false m1266 (Some w1251)))].
Definition e1369 : entry := En N_MatchRecognizeClause (Some true) (Some w12) k1265 c1368.
Definition d1370 : desc := [e1369].
Definition m1371 : N := 8211348823748239764815378530924940132353%N.
Definition c1372 : list (string * cdesc) := [("left", (CD true false m213 None)); ("null_order", (CD false true m4 None)); ("order", (CD true false m4 (Some w13))); ("right", (CD true false m1371 None)); ("rparen", (CD true false m6 None))].
Definition e1373 : entry := En N_AccessOperator (Some true) (Some w1) k2 c1372.
Definition c1374 : list (string * cdesc) := [("and", (CD true false m4 None)); ("left", (CD true false m1350 None)); ("not", (CD true false m4 (Some w36))); ("null_order", (CD false true m4 None)); ("order", (CD true false m4 (Some w13))); ("right_max", (CD true false m1351 None)); ("right_min", (CD true false m1351 None))].
Definition e1375 : entry := En N_BetweenOperator (Some true) (Some w0) k35 c1374.
Definition c1376 : list (string * cdesc) := [("left", (CD true false m1350 None)); ("not", (CD true false m4 (Some w36))); ("null_order", (CD false true m4 None)); ("order", (CD true false m4 (Some w13))); ("quantifier", (CD true false m4 (Some w41))); ("right", (CD true false m1351 None))].
Definition e1377 : entry := En N_BinaryOperator (Some true) (Some w39) k40 c1376.
Definition c1378 : list (string * cdesc) := [("args", (CD false true m1349 None)); ("distinct", (CD true false m4 (Some w49))); ("func", (CD true false m213 None)); ("having", (CD true false m50 (Some w51))); ("ignore_nulls", (CD false true m4 None)); ("limit", (CD true false m52 (Some w53))); ("null_order", (CD false true m4 None)); ("order", (CD true false m4 (Some w13))); ("orderby", (CD true false m54 (Some w55))); ("over", (CD true false m56 (Some w57))); ("rparen", (CD true false m6 None))].
Definition e1379 : entry := En N_CallingTableFunction (Some true) (Some w46) k47 c1378.
Definition m1380 : N := 8211348823748239764852272019072426344449%N.
Definition c1381 : list (string * cdesc) := [("and", (CD true false m4 None)); ("args", (CD false true m1349 None)); ("distinct", (CD true false m4 (Some w49))); ("from", (CD true false m4 None)); ("func", (CD true false m187 (Some w188))); ("having", (CD true false m50 (Some w51))); ("ignore_nulls", (CD false true m4 None)); ("left", (CD true false m1350 None)); ("limit", (CD true false m52 (Some w53))); ("not", (CD true false m4 (Some w36))); ("null_order", (CD false true m4 None)); ("order", (CD true false m4 (Some w13))); ("orderby", (CD true false m54 (Some w55))); ("over", (CD true false m56 (Some w57))); ("quantifier", (CD true false m4 (Some w41))); ("right", (CD true false m1380 None)); ("right_max", (CD true false m1351 None)); ("right_min", (CD true false m1351 None)); ("rparen", (CD true false m6 None))].
Definition e1382 : entry := En N_CallingUnnest (Some true) (Some w188) k29 c1381.
Definition c1383 : list (string * cdesc) := [("left", (CD true false m1350 None)); ("not", (CD true false m4 (Some w36))); ("null_order", (CD false true m4 None)); ("order", (CD true false m4 (Some w13))); ("right", (CD true false m94 None))].
Definition e1384 : entry := En N_InOperator (Some true) (Some w93) k40 c1383.
Definition c1385 : list (string * cdesc) := [("distinct", (CD true false m4 (Some w49))); ("from", (CD true false m4 None)); ("left", (CD true false m1350 None)); ("not", (CD true false m4 (Some w36))); ("null_order", (CD false true m4 None)); ("order", (CD true false m4 (Some w13))); ("right", (CD true false m1351 None))].
Definition e1386 : entry := En N_IsDistinctFromOperator (Some true) (Some w101) k102 c1385.
Definition c1387 : list (string * cdesc) := [("left", (CD true false m1354 None)); ("right", (CD true false m4 (Some w49))); ("semicolon", (CD true false m6 (Some w76)))].
Definition e1388 : entry := En N_PipeStatement (Some true) (Some w111) k40 c1387.
Definition d1389 : desc := [e1373; e1375; e1377; e1379; e1382; e219; e220; e1356; e221; e1384; e1386; e223; e1388].
Definition c1390 : list (string * cdesc) := [("alias", (CD true false m75 None)); ("as", (CD true false m4 (Some w5))); ("left", (CD true false m213 None)); ("null_order", (CD false true m4 None)); ("order", (CD true false m4 (Some w13))); ("right", (CD true false m1371 None)); ("rparen", (CD true false m6 None))].
Definition e1391 : entry := En N_AccessOperator (Some true) (Some w1) k2 c1390.
Definition c1392 : list (string * cdesc) := [("alias", (CD true false m75 None)); ("and", (CD true false m4 None)); ("as", (CD true false m4 (Some w5))); ("left", (CD true false m1350 None)); ("not", (CD true false m4 (Some w36))); ("null_order", (CD false true m4 None)); ("order", (CD true false m4 (Some w13))); ("right_max", (CD true false m1351 None)); ("right_min", (CD true false m1351 None))].
Definition e1393 : entry := En N_BetweenOperator (Some true) (Some w0) k35 c1392.
Definition c1394 : list (string * cdesc) := [("alias", (CD true false m75 None)); ("as", (CD true false m4 (Some w5))); ("left", (CD true false m1350 None)); ("not", (CD true false m4 (Some w36))); ("null_order", (CD false true m4 None)); ("order", (CD true false m4 (Some w13))); ("quantifier", (CD true false m4 (Some w41))); ("right", (CD true false m1351 None))].
Definition e1395 : entry := En N_BinaryOperator (Some true) (Some w39) k40 c1394.
Definition c1396 : list (string * cdesc) := [("alias", (CD true false m75 None)); ("args", (CD false true m1349 None)); ("as", (CD true false m4 (Some w5))); ("distinct", (CD true false m4 (Some w49))); ("func", (CD true false m213 None)); ("having", (CD true false m50 (Some w51))); ("ignore_nulls", (CD false true m4 None)); ("limit", (CD true false m52 (Some w53))); ("null_order", (CD false true m4 None)); ("order", (CD true false m4 (Some w13))); ("orderby", (CD true false m54 (Some w55))); ("over", (CD true false m56 (Some w57))); ("rparen", (CD true false m6 None))].
Definition e1397 : entry := En N_CallingTableFunction (Some true) (Some w46) k47 c1396.
Definition c1398 : list (string * cdesc) := [("alias", (CD true false m75 None)); ("and", (CD true false m4 None)); ("args", (CD false true m1349 None)); ("as", (CD true false m4 (Some w5))); ("distinct", (CD true false m4 (Some w49))); ("from", (CD true false m4 None)); ("func", (CD true false m187 (Some w188))); ("having", (CD true false m50 (Some w51))); ("ignore_nulls", (CD false true m4 None)); ("left", (CD true false m1350 None)); ("limit", (CD true false m52 (Some w53))); ("not", (CD true false m4 (Some w36))); ("null_order", (CD false true m4 None)); ("order", (CD true false m4 (Some w13))); ("orderby", (CD true false m54 (Some w55))); ("over", (CD true false m56 (Some w57))); ("quantifier", (CD true false m4 (Some w41))); ("right", (CD true false m1380 None)); ("right_max", (CD true false m1351 None)); ("right_min", (CD true false m1351 None)); ("rparen", (CD true false m6 None))].
Definition e1399 : entry := En N_CallingUnnest (Some true) (Some w188) k29 c1398.
Definition c1400 : list (string * cdesc) := [("alias", (CD true false m75 None)); ("as", (CD true false m4 (Some w5))); ("left", (CD true false m213 None)); ("null_order", (CD false true m4 None)); ("order", (CD true false m4 (Some w13))); ("right", (CD true false m65 None))].
Definition e1401 : entry := En N_DotOperator (Some true) (Some w64) k40 c1400.
Definition e1402 : entry := En N_FunctionChain (Some true) (Some w64) k40 c1400.
Definition c1403 : list (string * cdesc) := [("alias", (CD true false m75 None)); ("as", (CD true false m4 (Some w5))); ("null_order", (CD false true m4 None)); ("order", (CD true false m4 (Some w13)))].
Definition e1404 : entry := En N_Identifier (Some true) None k29 c1403.
Definition c1405 : list (string * cdesc) := [("alias", (CD true false m75 None)); ("as", (CD true false m4 (Some w5))); ("left", (CD true false m1350 None)); ("not", (CD true false m4 (Some w36))); ("null_order", (CD false true m4 None)); ("order", (CD true false m4 (Some w13))); ("right", (CD true false m94 None))].
Definition e1406 : entry := En N_InOperator (Some true) (Some w93) k40 c1405.
Definition c1407 : list (string * cdesc) := [("alias", (CD true false m75 None)); ("as", (CD true false m4 (Some w5))); ("distinct", (CD true false m4 (Some w49))); ("from", (CD true false m4 None)); ("left", (CD true false m1350 None)); ("not", (CD true false m4 (Some w36))); ("null_order", (CD false true m4 None)); ("order", (CD true false m4 (Some w13))); ("right", (CD true false m1351 None))].
Definition e1408 : entry := En N_IsDistinctFromOperator (Some true) (Some w101) k102 c1407.
Definition c1409 : list (string * cdesc) := [("alias", (CD true false m75 None)); ("as", (CD true false m4 (Some w5))); ("null_order", (CD false true m4 None)); ("order", (CD true false m4 (Some w13))); ("trailing_idents", (CD false true m75 None))].
Definition e1410 : entry := En N_MultiTokenIdentifier (Some true) None k105 c1409.
Definition c1411 : list (string * cdesc) := [("alias", (CD true false m75 None)); ("as", (CD true false m4 (Some w5))); ("left", (CD true false m1354 None)); ("right", (CD true false m4 (Some w49))); ("semicolon", (CD true false m6 (Some w76)))].
Definition e1412 : entry := En N_PipeStatement (Some true) (Some w111) k40 c1411.
Definition d1413 : desc := [e1391; e1393; e1395; e1397; e1399; e1401; e1402; e1364; e1404; e1406; e1408; e1410; e1412].
Definition m1414 : N := 81129638414606681695789005144064%N.
Definition c1415 : list (string * cdesc) := [("config", (CD true false m1414 (Some w1251)))].
Definition e1416 : entry := En N_PivotOperator (Some true) (Some w15) k1265 c1415.
Definition d1417 : desc := [e1416].
Definition c1418 : list (string * cdesc) := [("alias", (CD true false m75 None)); ("as", (CD true false m4 (Some w5))); ("config", (CD true false m1414 (Some w1251)))].
Definition e1419 : entry := En N_PivotOperator (Some true) (Some w15) k1265 c1418.
Definition d1420 : desc := [e1419].
Definition m1421 : N := 174224571863520493293247799005065324265472%N.
Definition c1422 : list (string * cdesc) := [("config", (CD true false m1421 None)); ("include_or_exclude_nulls", (CD false true m4 None))].
Definition e1423 : entry := En N_UnpivotOperator (Some true) (Some w19) k1265 c1422.
Definition d1424 : desc := [e1423].
Definition c1425 : list (string * cdesc) := [("alias", (CD true false m75 None)); ("as", (CD true false m4 (Some w5))); ("config", (CD true false m1421 None)); ("include_or_exclude_nulls", (CD false true m4 None))].
Definition e1426 : entry := En N_UnpivotOperator (Some true) (Some w19) k1265 c1425.
Definition d1427 : desc := [e1426].
Definition c1428 : list (string * cdesc) := [("config", (CD true false m1414 None))].
Definition e1429 : entry := En N_PivotPipeOperator (Some true) (Some w15) k1265 c1428.
Definition d1430 : desc := [e1429].
Definition c1431 : list (string * cdesc) := [("alias", (CD true false m75 None)); ("as", (CD true false m4 (Some w5))); ("config", (CD true false m1414 None))].
Definition e1432 : entry := En N_PivotPipeOperator (Some true) (Some w15) k1265 c1431.
Definition d1433 : desc := [e1432].
Definition c1434 : list (string * cdesc) := [("config", (CD true false m1421 None)); ("keywords", (CD true false m50 (Some w626)))].
Definition e1435 : entry := En N_UnpivotPipeOperator (Some true) (Some w19) k1265 c1434.
Definition d1436 : desc := [e1435].
Definition c1437 : list (string * cdesc) := [("alias", (CD true false m75 None)); ("as", (CD true false m4 (Some w5))); ("config", (CD true false m1421 None)); ("keywords", (CD true false m50 (Some w626)))].
Definition e1438 : entry := En N_UnpivotPipeOperator (Some true) (Some w19) k1265 c1437.
Definition d1439 : desc := [e1438].
Definition m1440 : N := 8211348823787853846072510699721712107521%N.
Definition c1441 : list (string * cdesc) := [("and", (CD true false m4 None)); ("left", (CD true false m1440 None)); ("not", (CD true false m4 (Some w36))); ("null_order", (CD false true m4 None)); ("order", (CD true false m4 (Some w13))); ("right_max", (CD true false m1371 None)); ("right_min", (CD true false m1371 None))].
Definition e1442 : entry := En N_BetweenOperator (Some true) (Some w0) k35 c1441.
Definition c1443 : list (string * cdesc) := [("left", (CD true false m1440 None)); ("not", (CD true false m4 (Some w36))); ("null_order", (CD false true m4 None)); ("order", (CD true false m4 (Some w13))); ("quantifier", (CD true false m4 (Some w41))); ("right", (CD true false m1371 None))].
Definition e1444 : entry := En N_BinaryOperator (Some true) (Some w39) k40 c1443.
Definition m1445 : N := 8211348823748239764815450588527567994881%N.
Definition c1446 : list (string * cdesc) := [("args", (CD false true m1445 None)); ("distinct", (CD true false m4 (Some w49))); ("func", (CD true false m213 None)); ("having", (CD true false m50 (Some w51))); ("ignore_nulls", (CD false true m4 None)); ("limit", (CD true false m52 (Some w53))); ("null_order", (CD false true m4 None)); ("order", (CD true false m4 (Some w13))); ("orderby", (CD true false m54 (Some w55))); ("over", (CD true false m56 (Some w57))); ("rparen", (CD true false m6 None))].
Definition e1447 : entry := En N_CallingTableFunction (Some true) (Some w46) k47 c1446.
Definition c1448 : list (string * cdesc) := [("and", (CD true false m4 None)); ("args", (CD false true m1445 None)); ("distinct", (CD true false m4 (Some w49))); ("from", (CD true false m4 None)); ("func", (CD true false m187 (Some w188))); ("having", (CD true false m50 (Some w51))); ("ignore_nulls", (CD false true m4 None)); ("left", (CD true false m1440 None)); ("limit", (CD true false m52 (Some w53))); ("not", (CD true false m4 (Some w36))); ("null_order", (CD false true m4 None)); ("order", (CD true false m4 (Some w13))); ("orderby", (CD true false m54 (Some w55))); ("over", (CD true false m56 (Some w57))); ("quantifier", (CD true false m4 (Some w41))); ("right", (CD true false m1380 None)); ("right_max", (CD true false m1371 None)); ("right_min", (CD true false m1371 None)); ("rparen", (CD true false m6 None))].
Definition e1449 : entry := En N_CallingUnnest (Some true) (Some w188) k29 c1448.
Definition m1450 : N := 124655689424043313999532396080267264%N.
Definition c1451 : list (string * cdesc) := [("rparen", (CD true false m6 (Some w69))); ("stmt", (CD true false m1450 None))].
Definition e1452 : entry := En N_GroupedStatement (Some true) (Some w46) k86 c1451.
Definition c1453 : list (string * cdesc) := [("left", (CD true false m1440 None)); ("not", (CD true false m4 (Some w36))); ("null_order", (CD false true m4 None)); ("order", (CD true false m4 (Some w13))); ("right", (CD true false m94 None))].
Definition e1454 : entry := En N_InOperator (Some true) (Some w93) k40 c1453.
Definition c1455 : list (string * cdesc) := [("distinct", (CD true false m4 (Some w49))); ("from", (CD true false m4 None)); ("left", (CD true false m1440 None)); ("not", (CD true false m4 (Some w36))); ("null_order", (CD false true m4 None)); ("order", (CD true false m4 (Some w13))); ("right", (CD true false m1371 None))].
Definition e1456 : entry := En N_IsDistinctFromOperator (Some true) (Some w101) k102 c1455.
Definition m1457 : N := 178427739680497112937572903083150296666603528%N.
Definition c1458 : list (string * cdesc) := [("left", (CD true false m1354 None)); ("right", (CD true false m1457 None)); ("semicolon", (CD true false m6 (Some w76)))].
Definition e1459 : entry := En N_PipeStatement (Some true) (Some w111) k40 c1458.
Definition d1460 : desc := [e1373; e1442; e1444; e1447; e1449; e219; e220; e1452; e221; e1454; e1456; e223; e1459].
Definition c1461 : list (string * cdesc) := [("alias", (CD true false m75 None)); ("and", (CD true false m4 None)); ("as", (CD true false m4 (Some w5))); ("left", (CD true false m1440 None)); ("not", (CD true false m4 (Some w36))); ("null_order", (CD false true m4 None)); ("order", (CD true false m4 (Some w13))); ("right_max", (CD true false m1371 None)); ("right_min", (CD true false m1371 None))].
Definition e1462 : entry := En N_BetweenOperator (Some true) (Some w0) k35 c1461.
Definition c1463 : list (string * cdesc) := [("alias", (CD true false m75 None)); ("as", (CD true false m4 (Some w5))); ("left", (CD true false m1440 None)); ("not", (CD true false m4 (Some w36))); ("null_order", (CD false true m4 None)); ("order", (CD true false m4 (Some w13))); ("quantifier", (CD true false m4 (Some w41))); ("right", (CD true false m1371 None))].
Definition e1464 : entry := En N_BinaryOperator (Some true) (Some w39) k40 c1463.
Definition c1465 : list (string * cdesc) := [("alias", (CD true false m75 None)); ("args", (CD false true m1445 None)); ("as", (CD true false m4 (Some w5))); ("distinct", (CD true false m4 (Some w49))); ("func", (CD true false m213 None)); ("having", (CD true false m50 (Some w51))); ("ignore_nulls", (CD false true m4 None)); ("limit", (CD true false m52 (Some w53))); ("null_order", (CD false true m4 None)); ("order", (CD true false m4 (Some w13))); ("orderby", (CD true false m54 (Some w55))); ("over", (CD true false m56 (Some w57))); ("rparen", (CD true false m6 None))].
Definition e1466 : entry := En N_CallingTableFunction (Some true) (Some w46) k47 c1465.
Definition c1467 : list (string * cdesc) := [("alias", (CD true false m75 None)); ("and", (CD true false m4 None)); ("args", (CD false true m1445 None)); ("as", (CD true false m4 (Some w5))); ("distinct", (CD true false m4 (Some w49))); ("from", (CD true false m4 None)); ("func", (CD true false m187 (Some w188))); ("having", (CD true false m50 (Some w51))); ("ignore_nulls", (CD false true m4 None)); ("left", (CD true false m1440 None)); ("limit", (CD true false m52 (Some w53))); ("not", (CD true false m4 (Some w36))); ("null_order", (CD false true m4 None)); ("order", (CD true false m4 (Some w13))); ("orderby", (CD true false m54 (Some w55))); ("over", (CD true false m56 (Some w57))); ("quantifier", (CD true false m4 (Some w41))); ("right", (CD true false m1380 None)); ("right_max", (CD true false m1371 None)); ("right_min", (CD true false m1371 None)); ("rparen", (CD true false m6 None))].
Definition e1468 : entry := En N_CallingUnnest (Some true) (Some w188) k29 c1467.
Definition c1469 : list (string * cdesc) := [("alias", (CD true false m75 None)); ("as", (CD true false m4 (Some w5))); ("rparen", (CD true false m6 (Some w69))); ("stmt", (CD true false m1450 None))].
Definition e1470 : entry := En N_GroupedStatement (Some true) (Some w46) k86 c1469.
Definition c1471 : list (string * cdesc) := [("alias", (CD true false m75 None)); ("as", (CD true false m4 (Some w5))); ("left", (CD true false m1440 None)); ("not", (CD true false m4 (Some w36))); ("null_order", (CD false true m4 None)); ("order", (CD true false m4 (Some w13))); ("right", (CD true false m94 None))].
Definition e1472 : entry := En N_InOperator (Some true) (Some w93) k40 c1471.
Definition c1473 : list (string * cdesc) := [("alias", (CD true false m75 None)); ("as", (CD true false m4 (Some w5))); ("distinct", (CD true false m4 (Some w49))); ("from", (CD true false m4 None)); ("left", (CD true false m1440 None)); ("not", (CD true false m4 (Some w36))); ("null_order", (CD false true m4 None)); ("order", (CD true false m4 (Some w13))); ("right", (CD true false m1371 None))].
Definition e1474 : entry := En N_IsDistinctFromOperator (Some true) (Some w101) k102 c1473.
Definition c1475 : list (string * cdesc) := [("alias", (CD true false m75 None)); ("as", (CD true false m4 (Some w5))); ("left", (CD true false m1354 None)); ("right", (CD true false m1457 None)); ("semicolon", (CD true false m6 (Some w76)))].
Definition e1476 : entry := En N_PipeStatement (Some true) (Some w111) k40 c1475.
Definition d1477 : desc := [e1391; e1462; e1464; e1466; e1468; e1401; e1402; e1470; e1404; e1472; e1474; e1410; e1476].
Definition m1478 : N := 8211431900497976322057435018866207653889%N.
Definition c1479 : list (string * cdesc) := [("left", (CD true false m213 None)); ("null_order", (CD false true m4 None)); ("order", (CD true false m4 (Some w13))); ("right", (CD true false m1478 None)); ("rparen", (CD true false m6 None))].
Definition e1480 : entry := En N_AccessOperator (Some true) (Some w1) k2 c1479.
Definition m1481 : N := 8211431900497976322094328507013693865985%N.
Definition c1482 : list (string * cdesc) := [("and", (CD true false m4 None)); ("args", (CD false true m1445 None)); ("distinct", (CD true false m4 (Some w49))); ("from", (CD true false m4 None)); ("func", (CD true false m187 (Some w188))); ("having", (CD true false m50 (Some w51))); ("ignore_nulls", (CD false true m4 None)); ("left", (CD true false m1440 None)); ("limit", (CD true false m52 (Some w53))); ("not", (CD true false m4 (Some w36))); ("null_order", (CD false true m4 None)); ("order", (CD true false m4 (Some w13))); ("orderby", (CD true false m54 (Some w55))); ("over", (CD true false m56 (Some w57))); ("quantifier", (CD true false m4 (Some w41))); ("right", (CD true false m1481 None)); ("right_max", (CD true false m1371 None)); ("right_min", (CD true false m1371 None)); ("rparen", (CD true false m6 None))].
Definition e1483 : entry := En N_CallingUnnest (Some true) (Some w188) k29 c1482.
Definition m1484 : N := 40604462605160325686280636071937%N.
Definition c1485 : list (string * cdesc) := [("expr", (CD true false m1484 None)); ("rparen", (CD true false m6 None))].
Definition e1486 : entry := En N_GroupedExpr (Some true) (Some w46) k82 c1485.
Definition c1487 : list (string * cdesc) := [("left", (CD true false m1450 None)); ("right", (CD true false m1457 None)); ("semicolon", (CD true false m6 (Some w76)))].
Definition e1488 : entry := En N_PipeStatement (Some true) (Some w111) k40 c1487.
Definition d1489 : desc := [e1480; e1442; e1444; e1447; e1483; e219; e220; e1486; e1452; e221; e1454; e1456; e223; e1488].
Definition c1490 : list (string * cdesc) := [("alias", (CD true false m75 None)); ("as", (CD true false m4 (Some w5))); ("left", (CD true false m213 None)); ("null_order", (CD false true m4 None)); ("order", (CD true false m4 (Some w13))); ("right", (CD true false m1478 None)); ("rparen", (CD true false m6 None))].
Definition e1491 : entry := En N_AccessOperator (Some true) (Some w1) k2 c1490.
Definition c1492 : list (string * cdesc) := [("alias", (CD true false m75 None)); ("and", (CD true false m4 None)); ("args", (CD false true m1445 None)); ("as", (CD true false m4 (Some w5))); ("distinct", (CD true false m4 (Some w49))); ("from", (CD true false m4 None)); ("func", (CD true false m187 (Some w188))); ("having", (CD true false m50 (Some w51))); ("ignore_nulls", (CD false true m4 None)); ("left", (CD true false m1440 None)); ("limit", (CD true false m52 (Some w53))); ("not", (CD true false m4 (Some w36))); ("null_order", (CD false true m4 None)); ("order", (CD true false m4 (Some w13))); ("orderby", (CD true false m54 (Some w55))); ("over", (CD true false m56 (Some w57))); ("quantifier", (CD true false m4 (Some w41))); ("right", (CD true false m1481 None)); ("right_max", (CD true false m1371 None)); ("right_min", (CD true false m1371 None)); ("rparen", (CD true false m6 None))].
Definition e1493 : entry := En N_CallingUnnest (Some true) (Some w188) k29 c1492.
Definition c1494 : list (string * cdesc) := [("alias", (CD true false m75 None)); ("as", (CD true false m4 (Some w5))); ("expr", (CD true false m1484 None)); ("rparen", (CD true false m6 None))].
Definition e1495 : entry := En N_GroupedExpr (Some true) (Some w46) k82 c1494.
Definition c1496 : list (string * cdesc) := [("alias", (CD true false m75 None)); ("as", (CD true false m4 (Some w5))); ("left", (CD true false m1450 None)); ("right", (CD true false m1457 None)); ("semicolon", (CD true false m6 (Some w76)))].
Definition e1497 : entry := En N_PipeStatement (Some true) (Some w111) k40 c1496.
Definition d1498 : desc := [e1491; e1462; e1464; e1466; e1493; e1401; e1402; e1495; e1470; e1404; e1472; e1474; e1410; e1497].
Definition c1499 : list (string * cdesc) := [("config", (CD true false m1266 None))].
Definition e1500 : entry := En N_MatchRecognizeClause (Some true) (Some w12) k1265 c1499.
Definition d1501 : desc := [e1500].
Definition m1502 : N := 8211431900537590403314567187662979629057%N.
Definition c1503 : list (string * cdesc) := [("and", (CD true false m4 None)); ("left", (CD true false m1502 None)); ("not", (CD true false m4 (Some w36))); ("null_order", (CD false true m4 None)); ("order", (CD true false m4 (Some w13))); ("right_max", (CD true false m1478 None)); ("right_min", (CD true false m1478 None))].
Definition e1504 : entry := En N_BetweenOperator (Some true) (Some w0) k35 c1503.
Definition c1505 : list (string * cdesc) := [("left", (CD true false m1502 None)); ("not", (CD true false m4 (Some w36))); ("null_order", (CD false true m4 None)); ("order", (CD true false m4 (Some w13))); ("quantifier", (CD true false m4 (Some w41))); ("right", (CD true false m1478 None))].
Definition e1506 : entry := En N_BinaryOperator (Some true) (Some w39) k40 c1505.
Definition m1507 : N := 8211431900497976322057507076468835516417%N.
Definition c1508 : list (string * cdesc) := [("args", (CD false true m1507 None)); ("distinct", (CD true false m4 (Some w49))); ("func", (CD true false m213 None)); ("having", (CD true false m50 (Some w51))); ("ignore_nulls", (CD false true m4 None)); ("limit", (CD true false m52 (Some w53))); ("null_order", (CD false true m4 None)); ("order", (CD true false m4 (Some w13))); ("orderby", (CD true false m54 (Some w55))); ("over", (CD true false m56 (Some w57))); ("rparen", (CD true false m6 None))].
Definition e1509 : entry := En N_CallingTableFunction (Some true) (Some w46) k47 c1508.
Definition c1510 : list (string * cdesc) := [("and", (CD true false m4 None)); ("args", (CD false true m1507 None)); ("distinct", (CD true false m4 (Some w49))); ("from", (CD true false m4 None)); ("func", (CD true false m187 (Some w188))); ("having", (CD true false m50 (Some w51))); ("ignore_nulls", (CD false true m4 None)); ("left", (CD true false m1502 None)); ("limit", (CD true false m52 (Some w53))); ("not", (CD true false m4 (Some w36))); ("null_order", (CD false true m4 None)); ("order", (CD true false m4 (Some w13))); ("orderby", (CD true false m54 (Some w55))); ("over", (CD true false m56 (Some w57))); ("quantifier", (CD true false m4 (Some w41))); ("right", (CD true false m1481 None)); ("right_max", (CD true false m1478 None)); ("right_min", (CD true false m1478 None)); ("rparen", (CD true false m6 None))].
Definition e1511 : entry := En N_CallingUnnest (Some true) (Some w188) k29 c1510.
Definition c1512 : list (string * cdesc) := [("expr", (CD true false m74 None)); ("rparen", (CD true false m6 None))].
Definition e1513 : entry := En N_GroupedExpr (Some true) (Some w46) k82 c1512.
Definition c1514 : list (string * cdesc) := [("rparen", (CD true false m6 (Some w69))); ("stmt", (CD true false m88 None))].
Definition e1515 : entry := En N_GroupedStatement (Some true) (Some w46) k86 c1514.
Definition c1516 : list (string * cdesc) := [("left", (CD true false m1502 None)); ("not", (CD true false m4 (Some w36))); ("null_order", (CD false true m4 None)); ("order", (CD true false m4 (Some w13))); ("right", (CD true false m94 None))].
Definition e1517 : entry := En N_InOperator (Some true) (Some w93) k40 c1516.
Definition c1518 : list (string * cdesc) := [("distinct", (CD true false m4 (Some w49))); ("from", (CD true false m4 None)); ("left", (CD true false m1502 None)); ("not", (CD true false m4 (Some w36))); ("null_order", (CD false true m4 None)); ("order", (CD true false m4 (Some w13))); ("right", (CD true false m1478 None))].
Definition e1519 : entry := En N_IsDistinctFromOperator (Some true) (Some w101) k102 c1518.
Definition m1520 : N := 178427750314321079216899886313606778909360136%N.
Definition c1521 : list (string * cdesc) := [("left", (CD true false m1450 None)); ("right", (CD true false m1520 None)); ("semicolon", (CD true false m6 (Some w76)))].
Definition e1522 : entry := En N_PipeStatement (Some true) (Some w111) k40 c1521.
Definition d1523 : desc := [e1480; e1504; e1506; e1509; e1511; e219; e220; e1513; e1515; e221; e1517; e1519; e223; e1522].
Definition c1524 : list (string * cdesc) := [("alias", (CD true false m75 None)); ("and", (CD true false m4 None)); ("as", (CD true false m4 (Some w5))); ("left", (CD true false m1502 None)); ("not", (CD true false m4 (Some w36))); ("null_order", (CD false true m4 None)); ("order", (CD true false m4 (Some w13))); ("right_max", (CD true false m1478 None)); ("right_min", (CD true false m1478 None))].
Definition e1525 : entry := En N_BetweenOperator (Some true) (Some w0) k35 c1524.
Definition c1526 : list (string * cdesc) := [("alias", (CD true false m75 None)); ("as", (CD true false m4 (Some w5))); ("left", (CD true false m1502 None)); ("not", (CD true false m4 (Some w36))); ("null_order", (CD false true m4 None)); ("order", (CD true false m4 (Some w13))); ("quantifier", (CD true false m4 (Some w41))); ("right", (CD true false m1478 None))].
Definition e1527 : entry := En N_BinaryOperator (Some true) (Some w39) k40 c1526.
Definition c1528 : list (string * cdesc) := [("alias", (CD true false m75 None)); ("args", (CD false true m1507 None)); ("as", (CD true false m4 (Some w5))); ("distinct", (CD true false m4 (Some w49))); ("func", (CD true false m213 None)); ("having", (CD true false m50 (Some w51))); ("ignore_nulls", (CD false true m4 None)); ("limit", (CD true false m52 (Some w53))); ("null_order", (CD false true m4 None)); ("order", (CD true false m4 (Some w13))); ("orderby", (CD true false m54 (Some w55))); ("over", (CD true false m56 (Some w57))); ("rparen", (CD true false m6 None))].
Definition e1529 : entry := En N_CallingTableFunction (Some true) (Some w46) k47 c1528.
Definition c1530 : list (string * cdesc) := [("alias", (CD true false m75 None)); ("and", (CD true false m4 None)); ("args", (CD false true m1507 None)); ("as", (CD true false m4 (Some w5))); ("distinct", (CD true false m4 (Some w49))); ("from", (CD true false m4 None)); ("func", (CD true false m187 (Some w188))); ("having", (CD true false m50 (Some w51))); ("ignore_nulls", (CD false true m4 None)); ("left", (CD true false m1502 None)); ("limit", (CD true false m52 (Some w53))); ("not", (CD true false m4 (Some w36))); ("null_order", (CD false true m4 None)); ("order", (CD true false m4 (Some w13))); ("orderby", (CD true false m54 (Some w55))); ("over", (CD true false m56 (Some w57))); ("quantifier", (CD true false m4 (Some w41))); ("right", (CD true false m1481 None)); ("right_max", (CD true false m1478 None)); ("right_min", (CD true false m1478 None)); ("rparen", (CD true false m6 None))].
Definition e1531 : entry := En N_CallingUnnest (Some true) (Some w188) k29 c1530.
Definition c1532 : list (string * cdesc) := [("alias", (CD true false m75 None)); ("as", (CD true false m4 (Some w5))); ("expr", (CD true false m74 None)); ("rparen", (CD true false m6 None))].
Definition e1533 : entry := En N_GroupedExpr (Some true) (Some w46) k82 c1532.
Definition c1534 : list (string * cdesc) := [("alias", (CD true false m75 None)); ("as", (CD true false m4 (Some w5))); ("rparen", (CD true false m6 (Some w69))); ("stmt", (CD true false m88 None))].
Definition e1535 : entry := En N_GroupedStatement (Some true) (Some w46) k86 c1534.
Definition c1536 : list (string * cdesc) := [("alias", (CD true false m75 None)); ("as", (CD true false m4 (Some w5))); ("left", (CD true false m1502 None)); ("not", (CD true false m4 (Some w36))); ("null_order", (CD false true m4 None)); ("order", (CD true false m4 (Some w13))); ("right", (CD true false m94 None))].
Definition e1537 : entry := En N_InOperator (Some true) (Some w93) k40 c1536.
Definition c1538 : list (string * cdesc) := [("alias", (CD true false m75 None)); ("as", (CD true false m4 (Some w5))); ("distinct", (CD true false m4 (Some w49))); ("from", (CD true false m4 None)); ("left", (CD true false m1502 None)); ("not", (CD true false m4 (Some w36))); ("null_order", (CD false true m4 None)); ("order", (CD true false m4 (Some w13))); ("right", (CD true false m1478 None))].
Definition e1539 : entry := En N_IsDistinctFromOperator (Some true) (Some w101) k102 c1538.
Definition c1540 : list (string * cdesc) := [("alias", (CD true false m75 None)); ("as", (CD true false m4 (Some w5))); ("left", (CD true false m1450 None)); ("right", (CD true false m1520 None)); ("semicolon", (CD true false m6 (Some w76)))].
Definition e1541 : entry := En N_PipeStatement (Some true) (Some w111) k40 c1540.
Definition d1542 : desc := [e1491; e1525; e1527; e1529; e1531; e1401; e1402; e1533; e1535; e1404; e1537; e1539; e1410; e1541].
Definition c1543 : list (string * cdesc) := [("and", (CD true false m4 None)); ("args", (CD false true m1507 None)); ("distinct", (CD true false m4 (Some w49))); ("from", (CD true false m4 None)); ("func", (CD true false m187 (Some w188))); ("having", (CD true false m50 (Some w51))); ("ignore_nulls", (CD false true m4 None)); ("left", (CD true false m1502 None)); ("limit", (CD true false m52 (Some w53))); ("not", (CD true false m4 (Some w36))); ("null_order", (CD false true m4 None)); ("order", (CD true false m4 (Some w13))); ("orderby", (CD true false m54 (Some w55))); ("over", (CD true false m56 (Some w57))); ("quantifier", (CD true false m4 (Some w41))); ("right", (CD true false m1165 None)); ("right_max", (CD true false m1478 None)); ("right_min", (CD true false m1478 None)); ("rparen", (CD true false m6 None))].
Definition e1544 : entry := En N_CallingUnnest (Some true) (Some w188) k29 c1543.
Definition c1545 : list (string * cdesc) := [("left", (CD true false m88 None)); ("right", (CD true false m1520 None)); ("semicolon", (CD true false m6 (Some w76)))].
Definition e1546 : entry := En N_PipeStatement (Some true) (Some w111) k40 c1545.
Definition d1547 : desc := [e215; e1504; e1506; e1509; e1544; e219; e220; e1513; e1515; e221; e1517; e1519; e223; e1546].
Definition c1548 : list (string * cdesc) := [("alias", (CD true false m75 None)); ("as", (CD true false m4 (Some w5))); ("left", (CD true false m213 None)); ("null_order", (CD false true m4 None)); ("order", (CD true false m4 (Some w13))); ("right", (CD true false m3 None)); ("rparen", (CD true false m6 None))].
Definition e1549 : entry := En N_AccessOperator (Some true) (Some w1) k2 c1548.
Definition c1550 : list (string * cdesc) := [("alias", (CD true false m75 None)); ("and", (CD true false m4 None)); ("args", (CD false true m1507 None)); ("as", (CD true false m4 (Some w5))); ("distinct", (CD true false m4 (Some w49))); ("from", (CD true false m4 None)); ("func", (CD true false m187 (Some w188))); ("having", (CD true false m50 (Some w51))); ("ignore_nulls", (CD false true m4 None)); ("left", (CD true false m1502 None)); ("limit", (CD true false m52 (Some w53))); ("not", (CD true false m4 (Some w36))); ("null_order", (CD false true m4 None)); ("order", (CD true false m4 (Some w13))); ("orderby", (CD true false m54 (Some w55))); ("over", (CD true false m56 (Some w57))); ("quantifier", (CD true false m4 (Some w41))); ("right", (CD true false m1165 None)); ("right_max", (CD true false m1478 None)); ("right_min", (CD true false m1478 None)); ("rparen", (CD true false m6 None))].
Definition e1551 : entry := En N_CallingUnnest (Some true) (Some w188) k29 c1550.
Definition c1552 : list (string * cdesc) := [("alias", (CD true false m75 None)); ("as", (CD true false m4 (Some w5))); ("left", (CD true false m88 None)); ("right", (CD true false m1520 None)); ("semicolon", (CD true false m6 (Some w76)))].
Definition e1553 : entry := En N_PipeStatement (Some true) (Some w111) k40 c1552.
Definition d1554 : desc := [e1549; e1525; e1527; e1529; e1551; e1401; e1402; e1533; e1535; e1404; e1537; e1539; e1410; e1553].
Definition e1555 : entry := En N_CallingTableFunction (Some true) (Some w46) k47 c216.
Definition c1556 : list (string * cdesc) := [("and", (CD true false m4 None)); ("args", (CD false true m48 None)); ("distinct", (CD true false m4 (Some w49))); ("from", (CD true false m4 None)); ("func", (CD true false m187 (Some w188))); ("having", (CD true false m50 (Some w51))); ("ignore_nulls", (CD false true m4 None)); ("left", (CD true false m10 None)); ("limit", (CD true false m52 (Some w53))); ("not", (CD true false m4 (Some w36))); ("null_order", (CD false true m4 None)); ("order", (CD true false m4 (Some w13))); ("orderby", (CD true false m54 (Some w55))); ("over", (CD true false m56 (Some w57))); ("quantifier", (CD true false m4 (Some w41))); ("right", (CD true false m1165 None)); ("right_max", (CD true false m3 None)); ("right_min", (CD true false m3 None)); ("rparen", (CD true false m6 None))].
Definition e1557 : entry := En N_CallingUnnest (Some true) (Some w188) k29 c1556.
Definition m1558 : N := 178514862600577358094576189395228734773264392%N.
Definition c1559 : list (string * cdesc) := [("left", (CD true false m88 None)); ("right", (CD true false m1558 None)); ("semicolon", (CD true false m6 (Some w76)))].
Definition e1560 : entry := En N_PipeStatement (Some true) (Some w111) k40 c1559.
Definition d1561 : desc := [e215; e192; e194; e1555; e1557; e219; e220; e1513; e1515; e221; e205; e207; e223; e1560].
Definition c1562 : list (string * cdesc) := [("alias", (CD true false m75 None)); ("and", (CD true false m4 None)); ("as", (CD true false m4 (Some w5))); ("left", (CD true false m10 None)); ("not", (CD true false m4 (Some w36))); ("null_order", (CD false true m4 None)); ("order", (CD true false m4 (Some w13))); ("right_max", (CD true false m3 None)); ("right_min", (CD true false m3 None))].
Definition e1563 : entry := En N_BetweenOperator (Some true) (Some w0) k35 c1562.
Definition c1564 : list (string * cdesc) := [("alias", (CD true false m75 None)); ("as", (CD true false m4 (Some w5))); ("left", (CD true false m10 None)); ("not", (CD true false m4 (Some w36))); ("null_order", (CD false true m4 None)); ("order", (CD true false m4 (Some w13))); ("quantifier", (CD true false m4 (Some w41))); ("right", (CD true false m3 None))].
Definition e1565 : entry := En N_BinaryOperator (Some true) (Some w39) k40 c1564.
Definition c1566 : list (string * cdesc) := [("alias", (CD true false m75 None)); ("args", (CD false true m48 None)); ("as", (CD true false m4 (Some w5))); ("distinct", (CD true false m4 (Some w49))); ("func", (CD true false m213 None)); ("having", (CD true false m50 (Some w51))); ("ignore_nulls", (CD false true m4 None)); ("limit", (CD true false m52 (Some w53))); ("null_order", (CD false true m4 None)); ("order", (CD true false m4 (Some w13))); ("orderby", (CD true false m54 (Some w55))); ("over", (CD true false m56 (Some w57))); ("rparen", (CD true false m6 None))].
Definition e1567 : entry := En N_CallingTableFunction (Some true) (Some w46) k47 c1566.
Definition c1568 : list (string * cdesc) := [("alias", (CD true false m75 None)); ("and", (CD true false m4 None)); ("args", (CD false true m48 None)); ("as", (CD true false m4 (Some w5))); ("distinct", (CD true false m4 (Some w49))); ("from", (CD true false m4 None)); ("func", (CD true false m187 (Some w188))); ("having", (CD true false m50 (Some w51))); ("ignore_nulls", (CD false true m4 None)); ("left", (CD true false m10 None)); ("limit", (CD true false m52 (Some w53))); ("not", (CD true false m4 (Some w36))); ("null_order", (CD false true m4 None)); ("order", (CD true false m4 (Some w13))); ("orderby", (CD true false m54 (Some w55))); ("over", (CD true false m56 (Some w57))); ("quantifier", (CD true false m4 (Some w41))); ("right", (CD true false m1165 None)); ("right_max", (CD true false m3 None)); ("right_min", (CD true false m3 None)); ("rparen", (CD true false m6 None))].
Definition e1569 : entry := En N_CallingUnnest (Some true) (Some w188) k29 c1568.
Definition c1570 : list (string * cdesc) := [("alias", (CD true false m75 None)); ("as", (CD true false m4 (Some w5))); ("left", (CD true false m10 None)); ("not", (CD true false m4 (Some w36))); ("null_order", (CD false true m4 None)); ("order", (CD true false m4 (Some w13))); ("right", (CD true false m94 None))].
Definition e1571 : entry := En N_InOperator (Some true) (Some w93) k40 c1570.
Definition c1572 : list (string * cdesc) := [("alias", (CD true false m75 None)); ("as", (CD true false m4 (Some w5))); ("distinct", (CD true false m4 (Some w49))); ("from", (CD true false m4 None)); ("left", (CD true false m10 None)); ("not", (CD true false m4 (Some w36))); ("null_order", (CD false true m4 None)); ("order", (CD true false m4 (Some w13))); ("right", (CD true false m3 None))].
Definition e1573 : entry := En N_IsDistinctFromOperator (Some true) (Some w101) k102 c1572.
Definition c1574 : list (string * cdesc) := [("alias", (CD true false m75 None)); ("as", (CD true false m4 (Some w5))); ("left", (CD true false m88 None)); ("right", (CD true false m1558 None)); ("semicolon", (CD true false m6 (Some w76)))].
Definition e1575 : entry := En N_PipeStatement (Some true) (Some w111) k40 c1574.
Definition d1576 : desc := [e1549; e1563; e1565; e1567; e1569; e1401; e1402; e1533; e1535; e1404; e1571; e1573; e1410; e1575].
Definition e1577 : entry := En N_PivotOperator (Some true) (Some w15) k1265 c1428.
Definition d1578 : desc := [e1577].
Definition e1579 : entry := En N_PivotOperator (Some true) (Some w15) k1265 c1431.
Definition d1580 : desc := [e1579].
Definition c1581 : list (string * cdesc) := [("left", (CD true false m88 None)); ("right", (CD true false m112 None)); ("semicolon", (CD true false m6 (Some w76)))].
Definition e1582 : entry := En N_PipeStatement (Some true) (Some w111) k40 c1581.
Definition d1583 : desc := [e215; e192; e194; e1555; e1557; e219; e220; e1513; e1515; e221; e205; e207; e223; e1582].
Definition c1584 : list (string * cdesc) := [("alias", (CD true false m75 None)); ("as", (CD true false m4 (Some w5))); ("left", (CD true false m88 None)); ("right", (CD true false m112 None)); ("semicolon", (CD true false m6 (Some w76)))].
Definition e1585 : entry := En N_PipeStatement (Some true) (Some w111) k40 c1584.
Definition d1586 : desc := [e1549; e1563; e1565; e1567; e1569; e1401; e1402; e1533; e1535; e1404; e1571; e1573; e1410; e1585].
Definition d1587 : desc := [e1515; e1582].
Definition e1588 : entry := En N_GroupedStatement (Some true) (Some w46) k263 c1093.
Definition k1589 : list string := ["left"; "right"; "with"].
Definition e1590 : entry := En N_PipeStatement (Some true) (Some w111) k1589 c413.
Definition k1591 : list string := ["exprs"; "with"].
Definition e1592 : entry := En N_SelectStatement (Some true) (Some w280) k1591 c417.
Definition k1593 : list string := ["distinct_or_all"; "left"; "right"; "with"].
Definition e1594 : entry := En N_SetOperator (Some true) None k1593 c419.
Definition d1595 : desc := [e396; e1588; e1590; e1592; e1594].
Definition w1596 : list string := ["SELECT"].
Definition c1597 : list (string * cdesc) := [("as_struct_or_value", (CD false true m4 None)); ("differential_privacy", (CD true false m120 (Some w21))); ("distinct_or_all", (CD true false m4 (Some w121))); ("exprs", (CD false true m3 None)); ("from", (CD true false m52 (Some w72))); ("groupby", (CD true false m122 (Some w123))); ("having", (CD true false m52 (Some w51))); ("limit", (CD true false m87 (Some w53))); ("orderby", (CD true false m54 (Some w55))); ("qualify", (CD true false m52 (Some w124))); ("where", (CD true false m52 (Some w125))); ("window", (CD true false m126 (Some w127)))].
Definition e1598 : entry := En N_SelectStatement (Some true) (Some w1596) k119 c1597.
Definition d1599 : desc := [e1582; e1598; e631].
Definition w1600 : list string := ["SELECT"; "WITH"].
Definition d1601 : desc := [e396; e1588; e414; e418; e420].
Definition w1602 : list string := ["("; "SELECT"; "WITH"].
Definition d1603 : desc := [e396; e850; e414; e914; e919].
Definition d1604 : desc := [e396; e1094; e414; e418; e420].
Definition w1605 : list string := ["("; "SELECT"; "|>"].
Definition c1606 : list (string * cdesc) := [("limit", (CD true false m87 (Some w53))); ("orderby", (CD true false m54 (Some w55))); ("rparen", (CD true false m6 (Some w69))); ("semicolon", (CD true false m6 (Some w76))); ("stmt", (CD true false m88 None))].
Definition e1607 : entry := En N_GroupedStatement (Some true) (Some w46) k86 c1606.
Definition c1608 : list (string * cdesc) := [("as_struct_or_value", (CD false true m4 None)); ("differential_privacy", (CD true false m120 (Some w21))); ("distinct_or_all", (CD true false m4 (Some w121))); ("exprs", (CD false true m3 None)); ("from", (CD true false m52 (Some w72))); ("groupby", (CD true false m122 (Some w123))); ("having", (CD true false m52 (Some w51))); ("limit", (CD true false m87 (Some w53))); ("orderby", (CD true false m54 (Some w55))); ("qualify", (CD true false m52 (Some w124))); ("semicolon", (CD true false m6 (Some w76))); ("where", (CD true false m52 (Some w125))); ("window", (CD true false m126 (Some w127)))].
Definition e1609 : entry := En N_SelectStatement (Some true) (Some w280) k119 c1608.
Definition c1610 : list (string * cdesc) := [("by", (CD true false m50 (Some w131))); ("corresponding", (CD true false m132 (Some w133))); ("distinct_or_all", (CD true false m4 None)); ("left", (CD true false m134 None)); ("limit", (CD true false m87 (Some w53))); ("method", (CD true false m132 (Some w135))); ("orderby", (CD true false m54 (Some w55))); ("right", (CD true false m88 None)); ("semicolon", (CD true false m6 (Some w76)))].
Definition e1611 : entry := En N_SetOperator (Some true) None k130 c1610.
Definition d1612 : desc := [e1607; e1582; e1609; e1611].
Definition c1613 : list (string * cdesc) := [("limit", (CD true false m87 (Some w53))); ("orderby", (CD true false m54 (Some w55))); ("rparen", (CD true false m6 (Some w69))); ("stmt", (CD true false m88 None))].
Definition e1614 : entry := En N_GroupedStatement (Some true) (Some w46) k86 c1613.
Definition e1615 : entry := En N_SelectStatement (Some true) (Some w280) k119 c1597.
Definition c1616 : list (string * cdesc) := [("by", (CD true false m50 (Some w131))); ("corresponding", (CD true false m132 (Some w133))); ("distinct_or_all", (CD true false m4 None)); ("left", (CD true false m134 None)); ("limit", (CD true false m87 (Some w53))); ("method", (CD true false m132 (Some w135))); ("orderby", (CD true false m54 (Some w55))); ("right", (CD true false m88 None))].
Definition e1617 : entry := En N_SetOperator (Some true) None k130 c1616.
Definition d1618 : desc := [e1614; e1582; e1615; e1617].
Definition e1619 : entry := En N_SelectStatement (Some true) None k119 c417.
Definition d1620 : desc := [e396; e1094; e414; e1619; e420].
Definition d1621 : desc := [e396; e1094; e414; e1619; e1594].
Definition c1622 : list (string * cdesc) := [("expr", (CD true false m74 None)); ("semicolon", (CD true false m6 (Some w76)))].
Definition e1623 : entry := En N_FromStatement (Some true) (Some w72) k73 c1622.
Definition d1624 : desc := [e1623; e1582].
Definition d1625 : desc := [e79; e90; e114; e129; e137].
Definition d1626 : desc := [e1582].
Definition c1627 : list (string * cdesc) := [("exprs", (CD false true m3 None)); ("keywords", (CD true false m132 None)); ("window", (CD true false m126 (Some w127)))].
Definition e1628 : entry := En N_SelectPipeOperator (Some true) (Some w1596) k119 c1627.
Definition d1629 : desc := [e1628].
Definition w1630 : list string := ["OFFSET"].
Definition c1631 : list (string * cdesc) := [("exprs", (CD false true m3 None)); ("offset", (CD true false m52 (Some w1630)))].
Definition e1632 : entry := En N_LimitPipeOperator (Some true) (Some w53) k119 c1631.
Definition d1633 : desc := [e1632].
Definition c1634 : list (string * cdesc) := [("exprs", (CD false true m3 None)); ("groupby", (CD true false m122 (Some w123)))].
Definition e1635 : entry := En N_AggregatePipeOperator (Some true) (Some w724) k119 c1634.
Definition d1636 : desc := [e1635].
Definition w1637 : list string := ["EXCEPT"; "INTERSECT"; "UNION"].
Definition k1638 : list string := ["exprs"; "keywords"].
Definition c1639 : list (string * cdesc) := [("by", (CD true false m50 (Some w131))); ("corresponding", (CD true false m132 (Some w133))); ("exprs", (CD false true m3 None)); ("keywords", (CD true false m4 None))].
Definition e1640 : entry := En N_UnionPipeOperator (Some true) (Some w1637) k1638 c1639.
Definition d1641 : desc := [e1640].
Definition w1642 : list string := ["CROSS"; "FULL"; "INNER"; "LEFT"; "OUTER"; "RIGHT"].
Definition c1643 : list (string * cdesc) := [("by", (CD true false m50 (Some w131))); ("corresponding", (CD true false m132 (Some w133))); ("exprs", (CD false true m3 None)); ("keywords", (CD true false m4 None)); ("method", (CD true false m132 (Some w135)))].
Definition e1644 : entry := En N_UnionPipeOperator (Some true) None k1638 c1643.
Definition d1645 : desc := [e1644].
Definition w1646 : list string := ["JOIN"].
Definition k1647 : list string := ["exprs"; "method"].
Definition c1648 : list (string * cdesc) := [("exprs", (CD false true m1183 None)); ("method", (CD true false m132 (Some w1642))); ("on", (CD true false m52 (Some w808))); ("using", (CD true false m3 None))].
Definition e1649 : entry := En N_JoinPipeOperator (Some true) None k1647 c1648.
Definition d1650 : desc := [e1649].
Definition c1651 : list (string * cdesc) := [("exprs", (CD false true m1183 None)); ("method", (CD true false m4 (Some w1642))); ("on", (CD true false m52 (Some w808))); ("using", (CD true false m3 None))].
Definition e1652 : entry := En N_JoinPipeOperator (Some true) (Some w1646) k1647 c1651.
Definition d1653 : desc := [e1652].
Definition c1654 : list (string * cdesc) := [("exprs", (CD false true m1183 None)); ("on", (CD true false m52 (Some w808))); ("using", (CD true false m3 None))].
Definition e1655 : entry := En N_JoinPipeOperator (Some true) (Some w1646) k119 c1654.
Definition d1656 : desc := [e1655].
Definition k1657 : list string := ["group"; "keywords"].
Definition m1658 : N := 21267647932558653966460912964485513216%N.
Definition c1659 : list (string * cdesc) := [("group", (CD true false m1658 None)); ("keywords", (CD true false m4 None))].
Definition e1660 : entry := En N_TableSamplePipeOperator (Some true) (Some w17) k1657 c1659.
Definition d1661 : desc := [e1660].
Definition e1662 : entry := En N_WithPipeOperator (Some true) (Some w21) k1223 c1226.
Definition d1663 : desc := [e1662].
Definition e1664 : entry := En N_MatchRecognizePipeOperator (Some true) (Some w12) k1265 c1270.
Definition d1665 : desc := [e1664].
Definition c1666 : list (string * cdesc) := [("exprs", (CD false true m3 None)); ("keywords", (CD true false m4 None))].
Definition e1667 : entry := En N_BasePipeOperator (Some true) (Some w55) k1638 c1666.
Definition d1668 : desc := [e1667].
Definition w1669 : list string := ["AS"; "CALL"; "DROP"; "EXTEND"; "RENAME"; "SET"; "WHERE"].
Definition c1670 : list (string * cdesc) := [("exprs", (CD false true m3 None))].
Definition e1671 : entry := En N_BasePipeOperator (Some true) (Some w1669) k119 c1670.
Definition d1672 : desc := [e1671].
Definition d1673 : desc := [e865].
Definition d1674 : desc := [e1102].
Definition d1675 : desc := [e797].
Definition d1676 : desc := [e1062].
Definition d1677 : desc := [e941].
Definition d1678 : desc := [e1141].
Definition d1679 : desc := [e953].
Definition d1680 : desc := [e1149].
Definition d1681 : desc := [e888].
Definition c1682 : list (string * cdesc) := [("default_collate", (CD true false m50 (Some w618))); ("ident", (CD true false m166 None)); ("if_not_exists", (CD false true m4 None)); ("options", (CD true false m30 (Some w584))); ("semicolon", (CD true false m6 (Some w76))); ("what", (CD true false m4 (Some w508))); ("with_connection", (CD true false m50 (Some w21)))].
Definition e1683 : entry := En N_CreateSchemaStatement (Some true) (Some w722) k640 c1682.
Definition d1684 : desc := [e1683].
Definition d1685 : desc := [e769].
Definition c1686 : list (string * cdesc) := [("default_collate", (CD true false m50 (Some w618))); ("ident", (CD true false m166 None)); ("if_not_exists", (CD false true m4 None)); ("options", (CD true false m30 (Some w584))); ("what", (CD true false m4 (Some w508))); ("with_connection", (CD true false m50 (Some w21)))].
Definition e1687 : entry := En N_CreateSchemaStatement (Some true) (Some w722) k640 c1686.
Definition d1688 : desc := [e1687].
Definition d1689 : desc := [e1046].
Definition c1690 : list (string * cdesc) := [("column_group", (CD true false m737 None)); ("ident", (CD true false m166 None)); ("if_not_exists", (CD false true m4 None)); ("on", (CD true false m4 None)); ("options", (CD true false m30 (Some w584))); ("partitionby", (CD true false m54 (Some w623))); ("semicolon", (CD true false m6 (Some w76))); ("storing", (CD true false m30 (Some w589))); ("tablename", (CD true false m166 None)); ("what", (CD true false m50 (Some w619)))].
Definition e1691 : entry := En N_CreateIndexStatement (Some true) (Some w722) k736 c1690.
Definition d1692 : desc := [e1691].
Definition d1693 : desc := [e739].
Definition c1694 : list (string * cdesc) := [("column_group", (CD true false m737 None)); ("ident", (CD true false m166 None)); ("if_not_exists", (CD false true m4 None)); ("on", (CD true false m4 None)); ("options", (CD true false m30 (Some w584))); ("partitionby", (CD true false m54 (Some w623))); ("storing", (CD true false m30 (Some w589))); ("tablename", (CD true false m166 None)); ("what", (CD true false m50 (Some w619)))].
Definition e1695 : entry := En N_CreateIndexStatement (Some true) (Some w722) k736 c1694.
Definition d1696 : desc := [e1695].
Definition d1697 : desc := [e1026].
Definition c1698 : list (string * cdesc) := [("as", (CD true false m745 (Some w5))); ("clone", (CD true false m52 (Some w772))); ("clusterby", (CD true false m54 (Some w773))); ("column_schema_group", (CD true false m726 (Some w46))); ("default_collate", (CD true false m50 (Some w618))); ("ident", (CD true false m166 None)); ("if_not_exists", (CD false true m4 None)); ("like_or_copy", (CD true false m4 (Some w774))); ("options", (CD true false m30 (Some w584))); ("partitionby", (CD true false m54 (Some w623))); ("semicolon", (CD true false m6 (Some w76))); ("source_table", (CD true false m166 None)); ("what", (CD true false m4 (Some w512)))].
Definition e1699 : entry := En N_CreateTableStatement (Some true) (Some w722) k640 c1698.
Definition d1700 : desc := [e1699].
Definition d1701 : desc := [e778].
Definition c1702 : list (string * cdesc) := [("as", (CD true false m745 (Some w5))); ("clone", (CD true false m52 (Some w772))); ("clusterby", (CD true false m54 (Some w773))); ("column_schema_group", (CD true false m726 (Some w46))); ("default_collate", (CD true false m50 (Some w618))); ("ident", (CD true false m166 None)); ("if_not_exists", (CD false true m4 None)); ("like_or_copy", (CD true false m4 (Some w774))); ("options", (CD true false m30 (Some w584))); ("partitionby", (CD true false m54 (Some w623))); ("source_table", (CD true false m166 None)); ("what", (CD true false m4 (Some w512)))].
Definition e1703 : entry := En N_CreateTableStatement (Some true) (Some w722) k640 c1702.
Definition d1704 : desc := [e1703].
Definition d1705 : desc := [e1050].
Definition c1706 : list (string * cdesc) := [("as", (CD true false m781 (Some w5))); ("column_name_list", (CD true false m782 (Some w46))); ("ident", (CD true false m166 None)); ("if_not_exists", (CD false true m4 None)); ("options", (CD true false m30 (Some w584))); ("semicolon", (CD true false m6 (Some w76))); ("what", (CD true false m4 (Some w495)))].
Definition e1707 : entry := En N_CreateViewStatement (Some true) (Some w722) k640 c1706.
Definition d1708 : desc := [e1707].
Definition d1709 : desc := [e784].
Definition c1710 : list (string * cdesc) := [("as", (CD true false m781 (Some w5))); ("column_name_list", (CD true false m782 (Some w46))); ("ident", (CD true false m166 None)); ("if_not_exists", (CD false true m4 None)); ("options", (CD true false m30 (Some w584))); ("what", (CD true false m4 (Some w495)))].
Definition e1711 : entry := En N_CreateViewStatement (Some true) (Some w722) k640 c1710.
Definition d1712 : desc := [e1711].
Definition d1713 : desc := [e1054].
Definition k1714 : list string := ["group"; "ident"; "table"; "what"].
Definition m1715 : N := 80280230208783968632832%N.
Definition c1716 : list (string * cdesc) := [("as", (CD true false m1715 None)); ("connection", (CD true false m50 None)); ("determinism", (CD false true m4 None)); ("group", (CD true false m726 None)); ("ident", (CD true false m166 None)); ("if_not_exists", (CD false true m4 None)); ("language", (CD true false m52 None)); ("options", (CD true false m30 (Some w584))); ("remote", (CD true false m4 (Some w727))); ("returns", (CD true false m728 (Some w729))); ("semicolon", (CD true false m6 (Some w76))); ("table", (CD true false m4 (Some w512))); ("what", (CD true false m4 (Some w615)))].
Definition e1717 : entry := En N_CreateFunctionStatement (Some true) (Some w722) k1714 c1716.
Definition d1718 : desc := [e1717].
Definition c1719 : list (string * cdesc) := [("as", (CD true false m1715 None)); ("connection", (CD true false m50 None)); ("determinism", (CD false true m4 None)); ("group", (CD true false m726 None)); ("ident", (CD true false m166 None)); ("if_not_exists", (CD false true m4 None)); ("language", (CD true false m52 None)); ("options", (CD true false m30 (Some w584))); ("remote", (CD true false m4 (Some w727))); ("returns", (CD true false m728 (Some w729))); ("table", (CD true false m4 (Some w512))); ("what", (CD true false m4 (Some w615)))].
Definition e1720 : entry := En N_CreateFunctionStatement (Some true) (Some w722) k1714 c1719.
Definition d1721 : desc := [e1720].
Definition m1722 : N := 42501298345826806923264%N.
Definition c1723 : list (string * cdesc) := [("as", (CD true false m1722 None)); ("connection", (CD true false m50 None)); ("determinism", (CD false true m4 None)); ("group", (CD true false m726 None)); ("ident", (CD true false m166 None)); ("if_not_exists", (CD false true m4 None)); ("language", (CD true false m52 None)); ("options", (CD true false m30 (Some w584))); ("remote", (CD true false m4 (Some w727))); ("returns", (CD true false m728 (Some w729))); ("semicolon", (CD true false m6 (Some w76))); ("what", (CD true false m4 (Some w615)))].
Definition e1724 : entry := En N_CreateFunctionStatement (Some true) (Some w722) k723 c1723.
Definition d1725 : desc := [e1724].
Definition d1726 : desc := [e732].
Definition c1727 : list (string * cdesc) := [("as", (CD true false m1722 None)); ("connection", (CD true false m50 None)); ("determinism", (CD false true m4 None)); ("group", (CD true false m726 None)); ("ident", (CD true false m166 None)); ("if_not_exists", (CD false true m4 None)); ("language", (CD true false m52 None)); ("options", (CD true false m30 (Some w584))); ("remote", (CD true false m4 (Some w727))); ("returns", (CD true false m728 (Some w729))); ("what", (CD true false m4 (Some w615)))].
Definition e1728 : entry := En N_CreateFunctionStatement (Some true) (Some w722) k723 c1727.
Definition d1729 : desc := [e1728].
Definition d1730 : desc := [e1022].
Definition c1731 : list (string * cdesc) := [("as", (CD true false m52 (Some w5))); ("external", (CD true false m50 (Some w750))); ("group", (CD true false m726 None)); ("ident", (CD true false m166 None)); ("if_not_exists", (CD false true m4 None)); ("language", (CD true false m52 (Some w751))); ("options", (CD true false m30 (Some w584))); ("semicolon", (CD true false m6 (Some w76))); ("stmt", (CD true false m752 (Some w693))); ("what", (CD true false m4 (Some w500))); ("with_connection", (CD true false m50 (Some w21)))].
Definition e1732 : entry := En N_CreateProcedureStatement (Some true) (Some w722) k723 c1731.
Definition d1733 : desc := [e1732].
Definition d1734 : desc := [e754].
Definition c1735 : list (string * cdesc) := [("as", (CD true false m52 (Some w5))); ("external", (CD true false m50 (Some w750))); ("group", (CD true false m726 None)); ("ident", (CD true false m166 None)); ("if_not_exists", (CD false true m4 None)); ("language", (CD true false m52 (Some w751))); ("options", (CD true false m30 (Some w584))); ("stmt", (CD true false m752 (Some w693))); ("what", (CD true false m4 (Some w500))); ("with_connection", (CD true false m50 (Some w21)))].
Definition e1736 : entry := En N_CreateProcedureStatement (Some true) (Some w722) k723 c1735.
Definition d1737 : desc := [e1736].
Definition d1738 : desc := [e1034].
Definition c1739 : list (string * cdesc) := [("filter", (CD true false m4 None)); ("grant", (CD true false m4 (Some w762))); ("ident", (CD true false m166 None)); ("if_not_exists", (CD false true m4 None)); ("on", (CD true false m52 None)); ("semicolon", (CD true false m6 (Some w76))); ("to", (CD true false m30 None)); ("using", (CD true false m52 None)); ("what", (CD false true m4 None))].
Definition e1740 : entry := En N_CreateRowAccessPolicyStatement (Some true) (Some w722) k761 c1739.
Definition d1741 : desc := [e1740].
Definition d1742 : desc := [e764].
Definition c1743 : list (string * cdesc) := [("filter", (CD true false m4 None)); ("grant", (CD true false m4 (Some w762))); ("ident", (CD true false m166 None)); ("if_not_exists", (CD false true m4 None)); ("on", (CD true false m52 None)); ("to", (CD true false m30 None)); ("using", (CD true false m52 None)); ("what", (CD false true m4 None))].
Definition e1744 : entry := En N_CreateRowAccessPolicyStatement (Some true) (Some w722) k761 c1743.
Definition d1745 : desc := [e1744].
Definition d1746 : desc := [e1042].
Definition c1747 : list (string * cdesc) := [("ident", (CD true false m166 None)); ("if_not_exists", (CD false true m4 None)); ("input", (CD true false m30 (Some w743))); ("options", (CD true false m30 (Some w584))); ("output", (CD true false m30 (Some w744))); ("query", (CD true false m745 (Some w5))); ("remote", (CD true false m50 (Some w727))); ("semicolon", (CD true false m6 (Some w76))); ("training_data_custom_holiday", (CD true false m30 (Some w5))); ("transform", (CD true false m30 (Some w592))); ("what", (CD true false m4 (Some w504)))].
Definition e1748 : entry := En N_CreateModelStatement (Some true) (Some w722) k640 c1747.
Definition d1749 : desc := [e1748].
Definition d1750 : desc := [e747].
Definition c1751 : list (string * cdesc) := [("ident", (CD true false m166 None)); ("if_not_exists", (CD false true m4 None)); ("input", (CD true false m30 (Some w743))); ("options", (CD true false m30 (Some w584))); ("output", (CD true false m30 (Some w744))); ("query", (CD true false m745 (Some w5))); ("remote", (CD true false m50 (Some w727))); ("training_data_custom_holiday", (CD true false m30 (Some w5))); ("transform", (CD true false m30 (Some w592))); ("what", (CD true false m4 (Some w504)))].
Definition e1752 : entry := En N_CreateModelStatement (Some true) (Some w722) k640 c1751.
Definition d1753 : desc := [e1752].
Definition d1754 : desc := [e1030].
Definition c1755 : list (string * cdesc) := [("add", (CD true false m50 (Some w661))); ("default_collate", (CD true false m50 (Some w618))); ("drop", (CD true false m50 (Some w617))); ("ident", (CD true false m166 None)); ("if_exists", (CD false true m4 None)); ("options", (CD true false m30 (Some w584))); ("semicolon", (CD true false m6 (Some w76))); ("set", (CD true false m4 (Some w641))); ("what", (CD true false m4 (Some w508)))].
Definition e1756 : entry := En N_AlterSchemaStatement (Some true) (Some w633) k640 c1755.
Definition d1757 : desc := [e1756].
Definition c1758 : list (string * cdesc) := [("add", (CD true false m50 (Some w661))); ("default_collate", (CD true false m50 (Some w618))); ("drop", (CD true false m50 (Some w617))); ("ident", (CD true false m166 (Some w548))); ("options", (CD true false m30 (Some w584))); ("semicolon", (CD true false m6 (Some w76))); ("set", (CD true false m4 (Some w641))); ("what", (CD true false m4 None))].
Definition e1759 : entry := En N_AlterSchemaStatement (Some true) (Some w633) k640 c1758.
Definition d1760 : desc := [e1759].
Definition c1761 : list (string * cdesc) := [("add", (CD true false m50 (Some w661))); ("default_collate", (CD true false m50 (Some w618))); ("drop", (CD true false m50 (Some w617))); ("ident", (CD true false m166 None)); ("if_exists", (CD false true m4 None)); ("options", (CD true false m30 (Some w584))); ("set", (CD true false m4 (Some w641))); ("what", (CD true false m4 (Some w508)))].
Definition e1762 : entry := En N_AlterSchemaStatement (Some true) (Some w633) k640 c1761.
Definition d1763 : desc := [e1762].
Definition c1764 : list (string * cdesc) := [("add", (CD true false m50 (Some w661))); ("default_collate", (CD true false m50 (Some w618))); ("drop", (CD true false m50 (Some w617))); ("ident", (CD true false m166 (Some w548))); ("options", (CD true false m30 (Some w584))); ("set", (CD true false m4 (Some w641))); ("what", (CD true false m4 None))].
Definition e1765 : entry := En N_AlterSchemaStatement (Some true) (Some w633) k640 c1764.
Definition d1766 : desc := [e1765].
Definition d1767 : desc := [e663].
Definition d1768 : desc := [e986].
Definition c1769 : list (string * cdesc) := [("add_columns", (CD false true m666 None)); ("add_constraints", (CD false true m667 None)); ("alter_column_stmt", (CD true false m668 (Some w633))); ("default_collate", (CD true false m50 (Some w618))); ("drop_columns", (CD false true m669 None)); ("ident", (CD true false m166 None)); ("if_exists", (CD false true m4 None)); ("options", (CD true false m30 (Some w584))); ("rename", (CD true false m4 (Some w670))); ("rename_columns", (CD false true m671 None)); ("semicolon", (CD true false m6 (Some w76))); ("set", (CD true false m4 (Some w641))); ("to", (CD true false m52 (Some w98))); ("what", (CD true false m4 (Some w512)))].
Definition e1770 : entry := En N_AlterTableStatement (Some true) (Some w633) k640 c1769.
Definition d1771 : desc := [e1770].
Definition c1772 : list (string * cdesc) := [("add_columns", (CD false true m666 None)); ("add_constraints", (CD false true m667 None)); ("alter_column_stmt", (CD true false m668 (Some w633))); ("default_collate", (CD true false m50 (Some w618))); ("drop_columns", (CD false true m669 None)); ("ident", (CD true false m166 (Some w552))); ("options", (CD true false m30 (Some w584))); ("rename", (CD true false m4 (Some w670))); ("rename_columns", (CD false true m671 None)); ("semicolon", (CD true false m6 (Some w76))); ("set", (CD true false m4 (Some w641))); ("to", (CD true false m52 (Some w98))); ("what", (CD true false m4 None))].
Definition e1773 : entry := En N_AlterTableStatement (Some true) (Some w633) k640 c1772.
Definition d1774 : desc := [e1773].
Definition c1775 : list (string * cdesc) := [("add_columns", (CD false true m666 None)); ("add_constraints", (CD false true m667 None)); ("alter_column_stmt", (CD true false m668 (Some w633))); ("default_collate", (CD true false m50 (Some w618))); ("drop_columns", (CD false true m669 None)); ("ident", (CD true false m166 None)); ("if_exists", (CD false true m4 None)); ("options", (CD true false m30 (Some w584))); ("rename", (CD true false m4 (Some w670))); ("rename_columns", (CD false true m671 None)); ("set", (CD true false m4 (Some w641))); ("to", (CD true false m52 (Some w98))); ("what", (CD true false m4 (Some w512)))].
Definition e1776 : entry := En N_AlterTableStatement (Some true) (Some w633) k640 c1775.
Definition d1777 : desc := [e1776].
Definition c1778 : list (string * cdesc) := [("add_columns", (CD false true m666 None)); ("add_constraints", (CD false true m667 None)); ("alter_column_stmt", (CD true false m668 (Some w633))); ("default_collate", (CD true false m50 (Some w618))); ("drop_columns", (CD false true m669 None)); ("ident", (CD true false m166 (Some w552))); ("options", (CD true false m30 (Some w584))); ("rename", (CD true false m4 (Some w670))); ("rename_columns", (CD false true m671 None)); ("set", (CD true false m4 (Some w641))); ("to", (CD true false m52 (Some w98))); ("what", (CD true false m4 None))].
Definition e1779 : entry := En N_AlterTableStatement (Some true) (Some w633) k640 c1778.
Definition d1780 : desc := [e1779].
Definition d1781 : desc := [e673].
Definition d1782 : desc := [e990].
Definition w1783 : list string := ["COLUMN"].
Definition c1784 : list (string * cdesc) := [("data_type", (CD false true m4 None)); ("default", (CD true false m52 None)); ("drop_default", (CD false true m4 None)); ("drop_not_null", (CD false true m4 None)); ("ident", (CD true false m75 None)); ("if_exists", (CD false true m4 None)); ("options", (CD true false m30 (Some w584))); ("semicolon", (CD true false m6 (Some w76))); ("set", (CD true false m4 (Some w641))); ("type", (CD true false m25 None)); ("what", (CD true false m4 (Some w1783)))].
Definition e1785 : entry := En N_AlterColumnStatement (Some true) (Some w633) k640 c1784.
Definition d1786 : desc := [e1785].
Definition c1787 : list (string * cdesc) := [("data_type", (CD false true m4 None)); ("default", (CD true false m52 None)); ("drop_default", (CD false true m4 None)); ("drop_not_null", (CD false true m4 None)); ("ident", (CD true false m75 (Some w1783))); ("options", (CD true false m30 (Some w584))); ("semicolon", (CD true false m6 (Some w76))); ("set", (CD true false m4 (Some w641))); ("type", (CD true false m25 None)); ("what", (CD true false m4 None))].
Definition e1788 : entry := En N_AlterColumnStatement (Some true) (Some w633) k640 c1787.
Definition d1789 : desc := [e1788].
Definition c1790 : list (string * cdesc) := [("data_type", (CD false true m4 None)); ("default", (CD true false m52 None)); ("drop_default", (CD false true m4 None)); ("drop_not_null", (CD false true m4 None)); ("ident", (CD true false m75 None)); ("if_exists", (CD false true m4 None)); ("options", (CD true false m30 (Some w584))); ("set", (CD true false m4 (Some w641))); ("type", (CD true false m25 None)); ("what", (CD true false m4 (Some w1783)))].
Definition e1791 : entry := En N_AlterColumnStatement (Some true) (Some w633) k640 c1790.
Definition d1792 : desc := [e1791].
Definition c1793 : list (string * cdesc) := [("data_type", (CD false true m4 None)); ("default", (CD true false m52 None)); ("drop_default", (CD false true m4 None)); ("drop_not_null", (CD false true m4 None)); ("ident", (CD true false m75 (Some w1783))); ("options", (CD true false m30 (Some w584))); ("set", (CD true false m4 (Some w641))); ("type", (CD true false m25 None)); ("what", (CD true false m4 None))].
Definition e1794 : entry := En N_AlterColumnStatement (Some true) (Some w633) k640 c1793.
Definition d1795 : desc := [e1794].
Definition d1796 : desc := [e643].
Definition d1797 : desc := [e970].
Definition w1798 : list string := ["VECTOR"].
Definition c1799 : list (string * cdesc) := [("ident", (CD true false m166 None)); ("if_exists", (CD false true m4 None)); ("on", (CD true false m52 None)); ("operation", (CD true false m4 None)); ("semicolon", (CD true false m6 (Some w76))); ("what", (CD true false m50 (Some w1798)))].
Definition e1800 : entry := En N_AlterVectorIndexStatement (Some true) (Some w633) k676 c1799.
Definition d1801 : desc := [e1800].
Definition d1802 : desc := [e678].
Definition c1803 : list (string * cdesc) := [("ident", (CD true false m166 None)); ("if_exists", (CD false true m4 None)); ("on", (CD true false m52 None)); ("operation", (CD true false m4 None)); ("what", (CD true false m50 (Some w1798)))].
Definition e1804 : entry := En N_AlterVectorIndexStatement (Some true) (Some w633) k676 c1803.
Definition d1805 : desc := [e1804].
Definition d1806 : desc := [e994].
Definition c1807 : list (string * cdesc) := [("alter_column_stmt", (CD true false m668 (Some w633))); ("ident", (CD true false m166 None)); ("if_exists", (CD false true m4 None)); ("options", (CD true false m30 None)); ("semicolon", (CD true false m6 (Some w76))); ("set", (CD true false m4 None)); ("what", (CD true false m4 (Some w495)))].
Definition e1808 : entry := En N_AlterViewStatement (Some true) (Some w633) k640 c1807.
Definition d1809 : desc := [e1808].
Definition d1810 : desc := [e684].
Definition c1811 : list (string * cdesc) := [("alter_column_stmt", (CD true false m668 (Some w633))); ("ident", (CD true false m166 None)); ("if_exists", (CD false true m4 None)); ("options", (CD true false m30 None)); ("set", (CD true false m4 None)); ("what", (CD true false m4 (Some w495)))].
Definition e1812 : entry := En N_AlterViewStatement (Some true) (Some w633) k640 c1811.
Definition d1813 : desc := [e1812].
Definition d1814 : desc := [e998].
Definition w1815 : list string := ["ORGANIZATION"].
Definition c1816 : list (string * cdesc) := [("options", (CD true false m30 None)); ("semicolon", (CD true false m6 (Some w76))); ("set", (CD true false m4 None)); ("what", (CD true false m4 (Some w1815)))].
Definition e1817 : entry := En N_AlterOrganizationStatement (Some true) (Some w633) k651 c1816.
Definition d1818 : desc := [e1817].
Definition c1819 : list (string * cdesc) := [("options", (CD true false m30 None)); ("semicolon", (CD true false m6 (Some w76))); ("set", (CD true false m4 (Some w1815))); ("what", (CD true false m4 None))].
Definition e1820 : entry := En N_AlterOrganizationStatement (Some true) (Some w633) k651 c1819.
Definition d1821 : desc := [e1820].
Definition c1822 : list (string * cdesc) := [("options", (CD true false m30 None)); ("set", (CD true false m4 None)); ("what", (CD true false m4 (Some w1815)))].
Definition e1823 : entry := En N_AlterOrganizationStatement (Some true) (Some w633) k651 c1822.
Definition d1824 : desc := [e1823].
Definition c1825 : list (string * cdesc) := [("options", (CD true false m30 None)); ("set", (CD true false m4 (Some w1815))); ("what", (CD true false m4 None))].
Definition e1826 : entry := En N_AlterOrganizationStatement (Some true) (Some w633) k651 c1825.
Definition d1827 : desc := [e1826].
Definition d1828 : desc := [e653].
Definition d1829 : desc := [e978].
Definition c1830 : list (string * cdesc) := [("ident", (CD true false m166 None)); ("options", (CD true false m30 None)); ("semicolon", (CD true false m6 (Some w76))); ("set", (CD true false m4 None)); ("what", (CD true false m4 (Some w516)))].
Definition e1831 : entry := En N_AlterProjectStatement (Some true) (Some w633) k651 c1830.
Definition d1832 : desc := [e1831].
Definition c1833 : list (string * cdesc) := [("ident", (CD true false m166 (Some w556))); ("options", (CD true false m30 None)); ("semicolon", (CD true false m6 (Some w76))); ("set", (CD true false m4 None)); ("what", (CD true false m4 None))].
Definition e1834 : entry := En N_AlterProjectStatement (Some true) (Some w633) k634 c1833.
Definition d1835 : desc := [e1834].
Definition c1836 : list (string * cdesc) := [("ident", (CD true false m166 None)); ("options", (CD true false m30 None)); ("set", (CD true false m4 None)); ("what", (CD true false m4 (Some w516)))].
Definition e1837 : entry := En N_AlterProjectStatement (Some true) (Some w633) k651 c1836.
Definition d1838 : desc := [e1837].
Definition c1839 : list (string * cdesc) := [("ident", (CD true false m166 (Some w556))); ("options", (CD true false m30 None)); ("set", (CD true false m4 None)); ("what", (CD true false m4 None))].
Definition e1840 : entry := En N_AlterProjectStatement (Some true) (Some w633) k634 c1839.
Definition d1841 : desc := [e1840].
Definition d1842 : desc := [e657].
Definition d1843 : desc := [e981].
Definition c1844 : list (string * cdesc) := [("ident", (CD true false m166 None)); ("options", (CD true false m30 None)); ("semicolon", (CD true false m6 (Some w76))); ("set", (CD true false m4 None)); ("what", (CD true false m4 (Some w520)))].
Definition e1845 : entry := En N_AlterBICapacityStatement (Some true) (Some w633) k634 c1844.
Definition d1846 : desc := [e1845].
Definition c1847 : list (string * cdesc) := [("ident", (CD true false m166 (Some w560))); ("options", (CD true false m30 None)); ("semicolon", (CD true false m6 (Some w76))); ("set", (CD true false m4 None)); ("what", (CD true false m4 None))].
Definition e1848 : entry := En N_AlterBICapacityStatement (Some true) (Some w633) k634 c1847.
Definition d1849 : desc := [e1848].
Definition c1850 : list (string * cdesc) := [("ident", (CD true false m166 None)); ("options", (CD true false m30 None)); ("set", (CD true false m4 None)); ("what", (CD true false m4 (Some w520)))].
Definition e1851 : entry := En N_AlterBICapacityStatement (Some true) (Some w633) k634 c1850.
Definition d1852 : desc := [e1851].
Definition c1853 : list (string * cdesc) := [("ident", (CD true false m166 (Some w560))); ("options", (CD true false m30 None)); ("set", (CD true false m4 None)); ("what", (CD true false m4 None))].
Definition e1854 : entry := En N_AlterBICapacityStatement (Some true) (Some w633) k634 c1853.
Definition d1855 : desc := [e1854].
Definition d1856 : desc := [e636].
Definition d1857 : desc := [e966].
Definition c1858 : list (string * cdesc) := [("ident", (CD true false m166 None)); ("options", (CD true false m30 None)); ("semicolon", (CD true false m6 (Some w76))); ("set", (CD true false m4 None)); ("what", (CD true false m4 (Some w527)))].
Definition e1859 : entry := En N_AlterReservationStatement (Some true) (Some w633) k634 c1858.
Definition d1860 : desc := [e1859].
Definition c1861 : list (string * cdesc) := [("ident", (CD true false m166 (Some w567))); ("options", (CD true false m30 None)); ("semicolon", (CD true false m6 (Some w76))); ("set", (CD true false m4 None)); ("what", (CD true false m4 None))].
Definition e1862 : entry := En N_AlterReservationStatement (Some true) (Some w633) k634 c1861.
Definition d1863 : desc := [e1862].
Definition c1864 : list (string * cdesc) := [("ident", (CD true false m166 None)); ("options", (CD true false m30 None)); ("set", (CD true false m4 None)); ("what", (CD true false m4 (Some w527)))].
Definition e1865 : entry := En N_AlterReservationStatement (Some true) (Some w633) k634 c1864.
Definition d1866 : desc := [e1865].
Definition c1867 : list (string * cdesc) := [("ident", (CD true false m166 (Some w567))); ("options", (CD true false m30 None)); ("set", (CD true false m4 None)); ("what", (CD true false m4 None))].
Definition e1868 : entry := En N_AlterReservationStatement (Some true) (Some w633) k634 c1867.
Definition d1869 : desc := [e1868].
Definition d1870 : desc := [e659].
Definition d1871 : desc := [e983].
Definition c1872 : list (string * cdesc) := [("ident", (CD true false m166 None)); ("if_exists", (CD false true m4 None)); ("options", (CD true false m30 None)); ("semicolon", (CD true false m6 (Some w76))); ("set", (CD true false m4 None)); ("what", (CD true false m4 (Some w504)))].
Definition e1873 : entry := En N_AlterModelStatement (Some true) (Some w633) k634 c1872.
Definition d1874 : desc := [e1873].
Definition c1875 : list (string * cdesc) := [("ident", (CD true false m166 (Some w544))); ("options", (CD true false m30 None)); ("semicolon", (CD true false m6 (Some w76))); ("set", (CD true false m4 None)); ("what", (CD true false m4 None))].
Definition e1876 : entry := En N_AlterModelStatement (Some true) (Some w633) k634 c1875.
Definition d1877 : desc := [e1876].
Definition c1878 : list (string * cdesc) := [("ident", (CD true false m166 None)); ("if_exists", (CD false true m4 None)); ("options", (CD true false m30 None)); ("set", (CD true false m4 None)); ("what", (CD true false m4 (Some w504)))].
Definition e1879 : entry := En N_AlterModelStatement (Some true) (Some w633) k634 c1878.
Definition d1880 : desc := [e1879].
Definition c1881 : list (string * cdesc) := [("ident", (CD true false m166 (Some w544))); ("options", (CD true false m30 None)); ("set", (CD true false m4 None)); ("what", (CD true false m4 None))].
Definition e1882 : entry := En N_AlterModelStatement (Some true) (Some w633) k634 c1881.
Definition d1883 : desc := [e1882].
Definition d1884 : desc := [e648].
Definition d1885 : desc := [e974].
Definition w1886 : list string := ["ALL"; "ROW"].
Definition d1887 : desc := [e803].
Definition d1888 : desc := [e1066].
Definition d1889 : desc := [e810].
Definition d1890 : desc := [e1070].
Definition d1891 : desc := [e947].
Definition d1892 : desc := [e1145].
Definition d1893 : desc := [e845].
Definition d1894 : desc := [e1090].
Definition d1895 : desc := [e909].
Definition d1896 : desc := [e1122].
Definition c1897 : list (string * cdesc) := [("as", (CD true false m4 (Some w5))); ("ident", (CD true false m166 None)); ("json", (CD true false m4 None)); ("json_string", (CD true false m3 None)); ("options", (CD true false m30 (Some w584))); ("semicolon", (CD true false m6 (Some w76))); ("what", (CD true false m4 (Some w531)))].
Definition e1898 : entry := En N_CreateReservationStatement (Some true) (Some w722) k640 c1897.
Definition d1899 : desc := [e1898].
Definition c1900 : list (string * cdesc) := [("as", (CD true false m4 (Some w5))); ("ident", (CD true false m166 (Some w571))); ("json", (CD true false m4 None)); ("json_string", (CD true false m3 None)); ("options", (CD true false m30 (Some w584))); ("semicolon", (CD true false m6 (Some w76))); ("what", (CD true false m4 None))].
Definition e1901 : entry := En N_CreateReservationStatement (Some true) (Some w722) k640 c1900.
Definition d1902 : desc := [e1901].
Definition c1903 : list (string * cdesc) := [("as", (CD true false m4 (Some w5))); ("ident", (CD true false m166 None)); ("json", (CD true false m4 None)); ("json_string", (CD true false m3 None)); ("options", (CD true false m30 (Some w584))); ("what", (CD true false m4 (Some w531)))].
Definition e1904 : entry := En N_CreateReservationStatement (Some true) (Some w722) k640 c1903.
Definition d1905 : desc := [e1904].
Definition c1906 : list (string * cdesc) := [("as", (CD true false m4 (Some w5))); ("ident", (CD true false m166 (Some w571))); ("json", (CD true false m4 None)); ("json_string", (CD true false m3 None)); ("options", (CD true false m30 (Some w584))); ("what", (CD true false m4 None))].
Definition e1907 : entry := En N_CreateReservationStatement (Some true) (Some w722) k640 c1906.
Definition d1908 : desc := [e1907].
Definition d1909 : desc := [e758].
Definition d1910 : desc := [e1038].
Definition d1911 : desc := [e790].
Definition d1912 : desc := [e1058].
Definition d1913 : desc := [e924].
Definition d1914 : desc := [e1130].
Definition d1915 : desc := [e819].
Definition d1916 : desc := [e1074].
Definition d1917 : desc := [e697].
Definition d1918 : desc := [e1006].
Definition d1919 : desc := [e857].
Definition d1920 : desc := [e1098].
Definition d1921 : desc := [e639; e646; e650; e656; e658; e660; e665; e675; e681; e686; e692; e700; e706; e713; e721; e735; e742; e749; e756; e760; e767; e771; e780; e786; e793; e800; e806; e812; e822; e829; e833; e839; e842; e848; e853; e860; e868; e877; e883; e891; e894; e899; e905; e912; e917; e922; e926; e931; e937; e944; e949; e956; e963].
Definition d1922 : desc := [e968; e972; e976; e980; e982; e984; e988; e992; e996; e1000; e1004; e1008; e1012; e1016; e1020; e1024; e1028; e1032; e1036; e1040; e1044; e1048; e1052; e1056; e1060; e1064; e1068; e1072; e1076; e1080; e1084; e1088; e842; e1092; e1096; e1100; e1104; e1108; e1112; e891; e894; e1116; e1120; e1124; e1126; e1128; e1132; e1135; e1139; e1143; e1147; e1151; e1155].
Definition d1923 : desc := [e703].
Definition d1924 : desc := [e1010].
Definition d1925 : desc := [e880].
Definition d1926 : desc := [e1110].
Definition d1927 : desc := [e902].
Definition d1928 : desc := [e1118].
Definition d1929 : desc := [e960].
Definition d1930 : desc := [e1153].
Definition d1931 : desc := [e929].
Definition d1932 : desc := [e1133].
Definition d1933 : desc := [e836].
Definition d1934 : desc := [e1086].
Definition e1935 : entry := En N_TransactionStatement (Some true) (Some w693) k29 c934.
Definition d1936 : desc := [e1935].
Definition e1937 : entry := En N_TransactionStatement (Some true) (Some w693) k29 c1136.
Definition d1938 : desc := [e1937].
Definition w1939 : list string := ["COMMIT"; "ROLLBACK"].
Definition e1940 : entry := En N_TransactionStatement (Some true) (Some w1939) k29 c934.
Definition d1941 : desc := [e1940].
Definition e1942 : entry := En N_TransactionStatement (Some true) (Some w1939) k29 c1136.
Definition d1943 : desc := [e1942].
Definition d1944 : desc := [e897].
Definition d1945 : desc := [e1114].
Definition d1946 : desc := [e718].
Definition d1947 : desc := [e1018].
Definition d1948 : desc := [e710].
Definition d1949 : desc := [e1014].
Definition d1950 : desc := [e689].
Definition d1951 : desc := [e1002].
Definition d1952 : desc := [e826].
Definition d1953 : desc := [e1078].
Definition d1954 : desc := [e831].
Definition d1955 : desc := [e1082].
Definition d1956 : desc := [e874].
Definition d1957 : desc := [e1106].
Definition k1958 : list string := ["type_declaration"; "what"].
Definition m1959 : N := 1361129467683753853853498429727072845824%N.
Definition c1960 : list (string * cdesc) := [("comma", (CD true false m6 (Some w7))); ("if_not_exists", (CD false true m4 None)); ("type_declaration", (CD true false m1959 None)); ("what", (CD true false m4 None))].
Definition e1961 : entry := En N_AddColumnClause (Some true) (Some w661) k1958 c1960.
Definition k1962 : list string := ["what"].
Definition m1963 : N := 268435456%N.
Definition c1964 : list (string * cdesc) := [("comma", (CD true false m6 (Some w7))); ("what", (CD true false m1963 None))].
Definition e1965 : entry := En N_AddConstraintClause (Some true) (Some w661) k1962 c1964.
Definition e1966 : entry := En N_AlterColumnStatement (Some true) (Some w633) k640 c645.
Definition e1967 : entry := En N_AlterBICapacityStatement (Some true) (Some w633) k634 c638.
Definition e1968 : entry := En N_AlterModelStatement (Some true) (Some w633) k634 c649.
Definition e1969 : entry := En N_AlterOrganizationStatement (Some true) (Some w633) k651 c655.
Definition m1970 : N := 5902958103587056517120%N.
Definition c1971 : list (string * cdesc) := [("comma", (CD true false m6 (Some w7))); ("ident", (CD true false m166 None)); ("if_exists", (CD false true m4 None)); ("what", (CD true false m1970 None))].
Definition e1972 : entry := En N_AlterTableDropClause (Some true) (Some w617) k1962 c1971.
Definition e1973 : entry := En N_AlterProjectStatement (Some true) (Some w633) k651 c638.
Definition e1974 : entry := En N_AlterReservationStatement (Some true) (Some w633) k634 c638.
Definition e1975 : entry := En N_AlterSchemaStatement (Some true) (Some w633) k640 c664.
Definition e1976 : entry := En N_AlterTableStatement (Some true) (Some w633) k640 c674.
Definition e1977 : entry := En N_AlterVectorIndexStatement (Some true) (Some w633) k676 c680.
Definition e1978 : entry := En N_AlterViewStatement (Some true) (Some w633) k640 c685.
Definition e1979 : entry := En N_AssertStatement (Some true) (Some w687) k73 c691.
Definition w1980 : list string := ["AS"; "CALL"; "DROP"; "EXTEND"; "ORDER"; "RENAME"; "SET"; "WHERE"].
Definition e1981 : entry := En N_BasePipeOperator (Some true) (Some w1980) k119 c1666.
Definition e1982 : entry := En N_BeginStatement (Some true) (Some w693) k694 c699.
Definition e1983 : entry := En N_BreakContinueStatement (Some true) (Some w701) k29 c705.
Definition e1984 : entry := En N_CallStatement (Some true) (Some w707) k708 c712.
Definition c1985 : list (string * cdesc) := [("columns", (CD true false m163 (Some w46))); ("comma", (CD true false m6 (Some w7))); ("constraint", (CD true false m4 (Some w164))); ("enforced", (CD true false m132 (Some w165))); ("ident", (CD true false m166 None)); ("if_not_exists", (CD false true m4 None)); ("key", (CD true false m4 None)); ("references", (CD true false m52 (Some w167)))].
Definition e1986 : entry := En N_Constraint (Some true) None k162 c1985.
Definition w1987 : list string := ["ELSE"; "WHEN"].
Definition k1988 : list string := ["result"].
Definition c1989 : list (string * cdesc) := [("expr", (CD true false m3 None)); ("result", (CD true false m3 None)); ("then", (CD true false m4 None))].
Definition e1990 : entry := En N_CaseExprArm (Some true) (Some w1987) k1988 c1989.
Definition e1991 : entry := En N_CaseStatement (Some true) (Some w714) k715 c720.
Definition c1992 : list (string * cdesc) := [("expr", (CD true false m3 None)); ("stmts", (CD false true m599 None)); ("then", (CD true false m4 None))].
Definition e1993 : entry := En N_CaseStatementArm (Some true) (Some w1987) k598 c1992.
Definition k1994 : list string := ["cast_from"; "cast_to"].
Definition w1995 : list string := ["FORMAT"].
Definition c1996 : list (string * cdesc) := [("cast_from", (CD true false m3 None)); ("cast_to", (CD true false m25 None)); ("format", (CD true false m52 (Some w1995)))].
Definition e1997 : entry := En N_CastArgument (Some true) None k1994 c1996.
Definition e1998 : entry := En N_CreateFunctionStatement (Some true) (Some w722) k723 c734.
Definition e1999 : entry := En N_CreateIndexStatement (Some true) (Some w722) k736 c741.
Definition e2000 : entry := En N_CreateModelStatement (Some true) (Some w722) k640 c748.
Definition e2001 : entry := En N_CreateProcedureStatement (Some true) (Some w722) k723 c755.
Definition e2002 : entry := En N_CreateReservationStatement (Some true) (Some w722) k640 c759.
Definition e2003 : entry := En N_CreateRowAccessPolicyStatement (Some true) (Some w722) k761 c766.
Definition e2004 : entry := En N_CreateSchemaStatement (Some true) (Some w722) k640 c770.
Definition e2005 : entry := En N_CreateTableStatement (Some true) (Some w722) k640 c779.
Definition e2006 : entry := En N_CreateViewStatement (Some true) (Some w722) k640 c785.
Definition e2007 : entry := En N_DeclareStatement (Some true) (Some w787) k788 c792.
Definition e2008 : entry := En N_DeleteStatement (Some true) (Some w794) k795 c799.
Definition k2009 : list string := ["differential_privacy"].
Definition c2010 : list (string * cdesc) := [("differential_privacy", (CD true false m4 None)); ("options", (CD true false m30 (Some w584)))].
Definition e2011 : entry := En N_DifferentialPrivacyClause (Some true) (Some w21) k2009 c2010.
Definition e2012 : entry := En N_DropStatement (Some true) (Some w617) k640 c811.
Definition e2013 : entry := En N_DropRowAccessPolicyStatement (Some true) (Some w617) k801 c805.
Definition w2014 : list string := ["ELSEIF"].
Definition k2015 : list string := ["condition"; "then"].
Definition c2016 : list (string * cdesc) := [("condition", (CD true false m3 None)); ("then", (CD true false m695 None))].
Definition e2017 : entry := En N_ElseIfClause (Some true) (Some w2014) k2015 c2016.
Definition w2018 : list string := [].
Definition e2019 : entry := En N_EOF (Some false) (Some w2018) k29 c180.
Definition e2020 : entry := En N_ExecuteStatement (Some true) (Some w813) k814 c821.
Definition e2021 : entry := En N_ExportDataStatement (Some true) (Some w823) k824 c828.
Definition e2022 : entry := En N_ExportModelStatement (Some true) (Some w823) k640 c832.
Definition k2023 : list string := ["extract_datepart"; "extract_from"].
Definition c2024 : list (string * cdesc) := [("at_time_zone", (CD false true m4 None)); ("extract_datepart", (CD true false m3 None)); ("extract_from", (CD true false m3 None)); ("time_zone", (CD true false m3 None))].
Definition e2025 : entry := En N_ExtractArgument (Some true) None k2023 c2024.
Definition k2026 : list string := ["expr"; "system_time_as_of"].
Definition c2027 : list (string * cdesc) := [("expr", (CD true false m3 None)); ("system_time_as_of", (CD false true m4 None))].
Definition e2028 : entry := En N_ForSystemTimeAsOfClause (Some true) (Some w9) k2026 c2027.
Definition e2029 : entry := En N_ForStatement (Some true) (Some w9) k834 c838.
Definition e2030 : entry := En N_GrantStatement (Some true) (Some w762) k843 c847.
Definition k2031 : list string := ["idents"; "rparen"].
Definition m2032 : N := 604462909807314587353088%N.
Definition c2033 : list (string * cdesc) := [("idents", (CD false true m2032 None)); ("rparen", (CD true false m6 (Some w69)))].
Definition e2034 : entry := En N_GroupedIdentWithOptions (Some true) (Some w46) k2031 c2033.
Definition m2035 : N := 8211431900497976322094904967765930180609%N.
Definition c2036 : list (string * cdesc) := [("as", (CD true false m4 (Some w5))); ("comma", (CD true false m6 (Some w7))); ("exprs", (CD false true m2035 None)); ("row_value_alias", (CD true false m3 None)); ("rparen", (CD true false m6 None))].
Definition e2037 : entry := En N_GroupedExprs (Some true) None k68 c2036.
Definition k2038 : list string := ["rparen"; "type"].
Definition c2039 : list (string * cdesc) := [("rparen", (CD true false m6 None)); ("type", (CD true false m25 None))].
Definition e2040 : entry := En N_GroupedType (Some true) (Some w1192) k2038 c2039.
Definition e2041 : entry := En N_Keyword (Some true) None k29 c180.
Definition m2042 : N := 46043073207979040833536%N.
Definition c2043 : list (string * cdesc) := [("next_keyword", (CD true false m2042 None))].
Definition e2044 : entry := En N_KeywordSequence (Some true) None k29 c2043.
Definition m2045 : N := 8211431900537629090121962937266385616897%N.
Definition c2046 : list (string * cdesc) := [("expr", (CD true false m2045 None))].
Definition e2047 : entry := En N_KeywordWithExpr (Some true) None k73 c2046.
Definition m2048 : N := 8211431900537590403352037136562702155777%N.
Definition c2049 : list (string * cdesc) := [("exprs", (CD false true m2048 None))].
Definition e2050 : entry := En N_KeywordWithExprs (Some true) None k119 c2049.
Definition c2051 : list (string * cdesc) := [("type", (CD true false m25 None))].
Definition e2052 : entry := En N_KeywordWithType (Some true) (Some w729) k115 c2051.
Definition m2053 : N := 85195247419658659826055687586160050176%N.
Definition c2054 : list (string * cdesc) := [("group", (CD true false m2053 None))].
Definition e2055 : entry := En N_KeywordWithGroupedXXX (Some true) None k585 c2054.
Definition k2056 : list string := ["stmt"].
Definition c2057 : list (string * cdesc) := [("stmt", (CD true false m599 None))].
Definition e2058 : entry := En N_KeywordWithStatement (Some true) None k2056 c2057.
Definition c2059 : list (string * cdesc) := [("comma", (CD true false m6 (Some w7))); ("left", (CD true false m166 None)); ("options", (CD true false m30 (Some w584))); ("right", (CD true false m536 None)); ("trailing_idents", (CD false true m75 None))].
Definition e2060 : entry := En N_IdentWithOptions (Some true) None k29 c2059.
Definition e2061 : entry := En N_IfStatement (Some true) (Some w620) k854 c859.
Definition e2062 : entry := En N_InsertStatement (Some true) (Some w861) k862 c867.
Definition e2063 : entry := En N_JoinPipeOperator (Some true) None k119 c1648.
Definition c2064 : list (string * cdesc) := [("expr", (CD true false m3 None)); ("offset", (CD true false m52 (Some w1630)))].
Definition e2065 : entry := En N_LimitClause (Some true) (Some w53) k73 c2064.
Definition e2066 : entry := En N_LoadStatement (Some true) (Some w869) k870 c876.
Definition e2067 : entry := En N_LoopStatement (Some true) (Some w597) k878 c882.
Definition e2068 : entry := En N_MergeStatement (Some true) (Some w884) k885 c890.
Definition w2069 : list string := ["|"].
Definition c2070 : list (string * cdesc) := [("left", (CD false true m1292 None)); ("right", (CD false true m1287 None))].
Definition e2071 : entry := En N_OrPattern (Some true) (Some w2069) k40 c2070.
Definition k2072 : list string := ["window"].
Definition m2073 : N := 22300745198530623141837949727552018799656960%N.
Definition c2074 : list (string * cdesc) := [("window", (CD true false m2073 None))].
Definition e2075 : entry := En N_OverClause (Some true) (Some w57) k2072 c2074.
Definition k2076 : list string := ["grouped_expr"].
Definition w2077 : list string := ["OVERWRITE"; "PARTITIONS"].
Definition c2078 : list (string * cdesc) := [("grouped_expr", (CD true false m3 None)); ("overwrite", (CD true false m4 (Some w2077)))].
Definition e2079 : entry := En N_OverwritePartitionsClause (Some true) None k2076 c2078.
Definition e2080 : entry := En N_RaiseStatement (Some true) (Some w895) k29 c898.
Definition k2081 : list string := ["column"; "ident"; "to"].
Definition c2082 : list (string * cdesc) := [("column", (CD true false m4 None)); ("comma", (CD true false m6 (Some w7))); ("ident", (CD true false m166 None)); ("if_exists", (CD true false m50 (Some w620))); ("to", (CD true false m52 None))].
Definition e2083 : entry := En N_RenameColumnClause (Some true) (Some w670) k2081 c2082.
Definition e2084 : entry := En N_RepeatStatement (Some true) (Some w604) k900 c904.
Definition e2085 : entry := En N_RevokeStatement (Some true) (Some w906) k907 c911.
Definition e2086 : entry := En N_SetStatement (Some true) (Some w641) k73 c925.
Definition w2087 : list string := ["DELETE"; "RETURN"].
Definition e2088 : entry := En N_SingleTokenStatement (Some true) (Some w2087) k29 c930.
Definition e2089 : entry := En N_Symbol (Some true) None k29 c180.
Definition k2090 : list string := ["group"; "system"].
Definition c2091 : list (string * cdesc) := [("group", (CD true false m1658 None)); ("system", (CD true false m4 None))].
Definition e2092 : entry := En N_TableSampleClause (Some true) (Some w17) k2090 c2091.
Definition k2093 : list string := ["custom_holiday"; "rparen"; "training_data"].
Definition c2094 : list (string * cdesc) := [("custom_holiday", (CD true false m1224 None)); ("rparen", (CD true false m6 None)); ("training_data", (CD true false m1224 (Some w171)))].
Definition e2095 : entry := En N_TrainingDataCustomHolidayClause (Some true) None k2093 c2094.
Definition e2096 : entry := En N_TransactionStatement (Some true) (Some w932) k29 c936.
Definition e2097 : entry := En N_TruncateStatement (Some true) (Some w938) k939 c943.
Definition c2098 : list (string * cdesc) := [("aggregate", (CD true false m50 (Some w36))); ("collate", (CD true false m52 (Some w1190))); ("constraint", (CD true false m52 (Some w164))); ("default", (CD true false m52 (Some w618))); ("enforced", (CD true false m132 (Some w165))); ("not_null", (CD false true m4 None)); ("options", (CD true false m30 (Some w584))); ("parameter", (CD true false m163 (Some w46))); ("primarykey", (CD true false m50 (Some w1191))); ("references", (CD true false m52 (Some w167))); ("type", (CD true false m4 None)); ("type_declaration", (CD true false m1202 (Some w1192)))].
Definition e2099 : entry := En N_Type (Some true) None k29 c2098.
Definition w2100 : list string := ["IN"; "INOUT"; "OUT"].
Definition c2101 : list (string * cdesc) := [("comma", (CD true false m6 (Some w7))); ("in_out", (CD true false m4 (Some w2100))); ("type", (CD true false m25 None))].
Definition e2102 : entry := En N_TypeDeclaration None None k115 c2101.
Definition e2103 : entry := En N_UndropStatement (Some true) (Some w945) k640 c948.
Definition e2104 : entry := En N_UpdateStatement (Some true) (Some w950) k951 c955.
Definition w2105 : list string := ["WHEN"].
Definition k2106 : list string := ["matched"; "then"].
Definition w2107 : list string := ["AND"].
Definition c2108 : list (string * cdesc) := [("and", (CD true false m52 (Some w2107))); ("by_target_or_source", (CD false true m4 None)); ("matched", (CD true false m4 None)); ("not", (CD true false m4 (Some w36))); ("then", (CD true false m745 None))].
Definition e2109 : entry := En N_WhenClause (Some true) (Some w2105) k2106 c2108.
Definition e2110 : entry := En N_WhileStatement (Some true) (Some w957) k958 c962.
Definition k2111 : list string := ["as"; "window"].
Definition c2112 : list (string * cdesc) := [("as", (CD true false m4 None)); ("comma", (CD true false m6 (Some w7))); ("window", (CD true false m2073 None))].
Definition e2113 : entry := En N_WindowExpr (Some true) None k2111 c2112.
Definition m2114 : N := 8211431900497976323238603100335922380801%N.
Definition c2115 : list (string * cdesc) := [("and", (CD true false m4 None)); ("between", (CD true false m4 (Some w0))); ("end", (CD false true m2114 None)); ("start", (CD false true m2114 None))].
Definition e2116 : entry := En N_WindowFrameClause (Some true) (Some w1213) k29 c2115.
Definition k2117 : list string := ["offset"].
Definition c2118 : list (string * cdesc) := [("alias", (CD true false m75 None)); ("as", (CD true false m4 (Some w5))); ("offset", (CD true false m4 None))].
Definition e2119 : entry := En N_WithOffsetClause (Some true) (Some w21) k2117 c2118.
Definition k2120 : list string := ["partition_columns"].
Definition c2121 : list (string * cdesc) := [("column_schema_group", (CD true false m726 (Some w46))); ("partition_columns", (CD false true m4 None))].
Definition e2122 : entry := En N_WithPartitionColumnsClause (Some true) (Some w21) k2120 c2121.
Definition w2123 : list string := ["CLUSTER"; "ORDER"; "PARTITION"].
Definition e2124 : entry := En N_XXXByExprs (Some true) (Some w2123) k1235 c1236.

Definition schema (t : node_type) : entry :=
  match t with
  | N_AccessOperator => e23
  | N_AddColumnClause => e1961
  | N_AddConstraintClause => e1965
  | N_AggregatePipeOperator => e1635
  | N_AlterColumnStatement => e1966
  | N_AlterBICapacityStatement => e1967
  | N_AlterModelStatement => e1968
  | N_AlterOrganizationStatement => e1969
  | N_AlterTableDropClause => e1972
  | N_AlterProjectStatement => e1973
  | N_AlterReservationStatement => e1974
  | N_AlterSchemaStatement => e1975
  | N_AlterTableStatement => e1976
  | N_AlterVectorIndexStatement => e1977
  | N_AlterViewStatement => e1978
  | N_ArrayLiteral => e28
  | N_AssertStatement => e1979
  | N_Asterisk => e34
  | N_BasePipeOperator => e1981
  | N_BinaryOperator => e43
  | N_BeginStatement => e1982
  | N_BetweenOperator => e38
  | N_BooleanLiteral => e45
  | N_BreakContinueStatement => e1983
  | N_CallingFunction => e59
  | N_CallingTableFunction => e1164
  | N_CallingUnnest => e1167
  | N_CallStatement => e1984
  | N_Constraint => e1986
  | N_CaseExpr => e63
  | N_CaseExprArm => e1990
  | N_CaseStatement => e1991
  | N_CaseStatementArm => e1993
  | N_CastArgument => e1997
  | N_CreateFunctionStatement => e1998
  | N_CreateIndexStatement => e1999
  | N_CreateModelStatement => e2000
  | N_CreateProcedureStatement => e2001
  | N_CreateReservationStatement => e2002
  | N_CreateRowAccessPolicyStatement => e2003
  | N_CreateSchemaStatement => e2004
  | N_CreateTableStatement => e2005
  | N_CreateViewStatement => e2006
  | N_Comment => En N_EOF None None [] []
  | N_DeclareStatement => e2007
  | N_DeleteStatement => e2008
  | N_DifferentialPrivacyClause => e2011
  | N_DotOperator => e67
  | N_DropStatement => e2012
  | N_DropRowAccessPolicyStatement => e2013
  | N_ElseIfClause => e2017
  | N_EOF => e2019
  | N_EmptyStruct => e71
  | N_ExecuteStatement => e2020
  | N_ExportDataStatement => e2021
  | N_ExportModelStatement => e2022
  | N_ExtractArgument => e2025
  | N_ForSystemTimeAsOfClause => e2028
  | N_ForStatement => e2029
  | N_FromStatement => e79
  | N_FunctionChain => e81
  | N_GrantStatement => e2030
  | N_GroupByExprs => e1245
  | N_GroupedIdentWithOptions => e2034
  | N_GroupedExpr => e85
  | N_GroupedExprs => e2037
  | N_GroupedPattern => e1299
  | N_GroupedStatement => e90
  | N_GroupedType => e2040
  | N_GroupedTypeDeclarationOrConstraints => e493
  | N_Keyword => e2041
  | N_KeywordSequence => e2044
  | N_KeywordWithExpr => e2047
  | N_KeywordWithExprs => e2050
  | N_KeywordWithType => e2052
  | N_KeywordWithGroupedXXX => e2055
  | N_KeywordWithStatement => e2058
  | N_KeywordWithStatements => e611
  | N_Identifier => e92
  | N_IdentWithOptions => e2060
  | N_IfStatement => e2061
  | N_InsertStatement => e2062
  | N_IntervalLiteral => e100
  | N_InOperator => e96
  | N_IsDistinctFromOperator => e104
  | N_JoinOperator => e1185
  | N_JoinPipeOperator => e2063
  | N_LimitClause => e2065
  | N_LimitPipeOperator => e1632
  | N_LoadStatement => e2066
  | N_LoopStatement => e2067
  | N_MatchRecognizeClause => e1271
  | N_MatchRecognizeConfig => e1281
  | N_MatchRecognizePipeOperator => e1664
  | N_MergeStatement => e2068
  | N_MultiTokenIdentifier => e107
  | N_NumericLiteral => e109
  | N_NullLiteral => e108
  | N_OrPattern => e2071
  | N_OverClause => e2075
  | N_OverwritePartitionsClause => e2079
  | N_Parameter => e110
  | N_Pattern => e1302
  | N_PatternClause => e1289
  | N_PatternQuantifier => e1308
  | N_PipeStatement => e114
  | N_PivotConfig => e1256
  | N_PivotOperator => e1579
  | N_PivotPipeOperator => e1432
  | N_RaiseStatement => e2080
  | N_RangeLiteral => e118
  | N_RenameColumnClause => e2083
  | N_RepeatStatement => e2084
  | N_RevokeStatement => e2085
  | N_SelectPipeOperator => e1628
  | N_SelectStatement => e129
  | N_SetOperator => e137
  | N_SetStatement => e2086
  | N_SingleTokenStatement => e2088
  | N_StringLiteral => e138
  | N_StructLiteral => e141
  | N_Symbol => e2089
  | N_TableSampleClause => e2092
  | N_TableSamplePipeOperator => e1660
  | N_TableSampleRatio => e1249
  | N_Template => e142
  | N_TrainingDataCustomHolidayClause => e2095
  | N_TransactionStatement => e2096
  | N_TruncateStatement => e2097
  | N_Type => e2099
  | N_TypeDeclaration => e2102
  | N_UnaryOperator => e145
  | N_Unknown => e146
  | N_UndropStatement => e2103
  | N_UnionPipeOperator => e1644
  | N_UnpivotOperator => e1426
  | N_UnpivotPipeOperator => e1438
  | N_UnpivotConfig => e1263
  | N_UpdateStatement => e2104
  | N_WhenClause => e2109
  | N_WhileStatement => e2110
  | N_WindowClause => e1233
  | N_WindowExpr => e2113
  | N_WindowFrameClause => e2116
  | N_WindowSpecification => e1215
  | N_WithClause => e1227
  | N_WithOffsetClause => e2119
  | N_WithPipeOperator => e1662
  | N_WithPartitionColumnsClause => e2122
  | N_WithQuery => e177
  | N_XXXByExprs => e2124
  end.

Definition table (f : fn) : list ctx :=
  match f with
  | F_parse_code => []
  | F_parse_between_operator => [
      Ctx false (Some w0) None None [(ANd d147 false)] (ANd d150 false) true None]
  | F_parse_binary_operator => [
      Ctx false (Some w101) None None [(ANd d147 false)] (ANd d153 false) true None; 
      Ctx false (Some w154) None None [(ANd d147 false)] (ANd d157 false) true None; 
      Ctx false (Some w158) None None [(ANd d147 false)] (ANd d160 false) true None]
  | F_parse_constraint => [
      Ctx false (Some w161) None None [] (ANd d170 false) true None; 
      Ctx false None None None [] (ANd d170 false) true None]
  | F_parse_cte => [
      Ctx false (Some w171) None None [] (ANd d176 false) true None; 
      Ctx false None None None [] (ANd d178 false) true None]
  | F_parse_enforced => [
      Ctx false (Some w165) None None [] (ANd d185 false) true None]
  | F_parse_expr => [
      Ctx false (Some w186) None None [ASc; (ABo (Some false)); (ABo (Some false)); (ABo (Some false)); (ABo (Some true))] (ANd d211 false) true None; 
      Ctx false (Some w212) None None [ASc; (ABo (Some false)); (ABo (Some true)); (ABo (Some false)); (ABo (Some true))] (ANd d224 false) true None; 
      Ctx false (Some w225) None None [ASc; (ABo (Some false)); (ABo (Some false)); (ABo (Some false)); (ABo (Some true))] (ANd d238 false) true None; 
      Ctx false (Some w212) None None [ASc; (ABo (Some true)); (ABo (Some false)); (ABo (Some false)); (ABo (Some true))] (ANd d293 false) true None; 
      Ctx false (Some w212) None None [ASc; (ABo (Some false)); (ABo (Some false)); (ABo (Some false)); (ABo (Some true))] (ANd d332 false) true None; 
      Ctx false None None None [ASc; (ABo (Some false)); (ABo (Some false)); (ABo (Some false)); (ABo (Some true))] (ANd d349 false) true None; 
      Ctx false None None None [ASc; (ABo (Some true)); (ABo (Some false)); (ABo (Some false)); (ABo (Some true))] (ANd d366 false) true None; 
      Ctx false None None None [ASc; (ABo (Some false)); (ABo (Some true)); (ABo (Some false)); (ABo (Some true))] (ANd d224 false) true None; 
      Ctx false None None None [ASc; (ABo (Some false)); (ABo (Some false)); (ABo (Some true)); (ABo (Some true))] (ANd d376 false) true None; 
      Ctx false None None None [ASc; (ABo (Some false)); (ABo (Some false)); (ABo (Some false)); (ABo (Some false))] (ANd d428 false) true None; 
      Ctx false None None None [ASc; (ABo (Some false)); (ABo (Some true)); (ABo (Some true)); (ABo (Some true))] (ANd d224 false) true None; 
      Ctx false None None None [ASc; (ABo (Some true)); (ABo (Some false)); (ABo (Some false)); (ABo (Some false))] (ANd d482 false) true None; 
      Ctx false None None None [ASc; (ABo None); (ABo (Some false)); (ABo (Some false)); (ABo (Some true))] (ANd d366 false) true None]
  | F_parse_exprs => [
      Ctx false None None None [ASc; (ABo (Some true)); (ABo (Some true))] (AVc m3 LAny) true None; 
      Ctx false None None None [ASc; (ABo (Some false)); (ABo (Some true))] (AVc m3 LAny) true None; 
      Ctx false None None None [ASc; (ABo (Some true)); (ABo (Some false))] (AVc m3 LAny) true None; 
      Ctx false None None None [ASc; (ABo None); (ABo (Some true))] (AVc m3 LAny) true None]
  | F_parse_grouped_exprs => [
      Ctx false (Some w46) None None [(ABo (Some false))] (ANd d485 false) true None; 
      Ctx false None None None [(ABo (Some false))] (ANd d487 false) true None; 
      Ctx false None None None [(ABo (Some true))] (ANd d487 false) true None]
  | F_parse_grouped_type_declaration_or_constraints => [
      Ctx false (Some w46) None None [(ABo (Some true)); (ABo (Some false))] (ANd d492 false) true None; 
      Ctx false (Some w46) None None [(ABo (Some false)); (ABo (Some false))] (ANd d492 false) true None; 
      Ctx false None None None [(ABo (Some false)); (ABo (Some true))] (ANd d494 false) true None; 
      Ctx false None None None [(ABo (Some true)); (ABo (Some false))] (ANd d494 false) true None; 
      Ctx false None None None [(ABo (Some false)); (ABo (Some false))] (ANd d494 false) true None]
  | F_parse_single_or_multi_token_identifier => [
      Ctx false (Some w495) None None [] (ANd d499 false) true None; 
      Ctx false (Some w500) None None [] (ANd d503 false) true None; 
      Ctx false (Some w504) None None [] (ANd d507 false) true None; 
      Ctx false (Some w508) None None [] (ANd d511 false) true None; 
      Ctx false (Some w512) None None [] (ANd d515 false) true None; 
      Ctx false (Some w516) None None [] (ANd d519 false) true None; 
      Ctx false (Some w520) None None [] (ANd d523 false) true None; 
      Ctx false None (Some w7) None [] (ANd d524 false) true (Some w7); 
      Ctx false (Some w212) None None [] (ANd d526 false) true None; 
      Ctx false (Some w527) None None [] (ANd d530 false) true None; 
      Ctx false (Some w531) None None [] (ANd d534 false) true None; 
      Ctx false None None None [] (ANd d526 false) true None]
  | F_parse_identifier => [
      Ctx false (Some w495) None None [] (ANd d539 false) true None; 
      Ctx false (Some w500) None None [] (ANd d543 false) true None; 
      Ctx false (Some w504) None None [] (ANd d547 false) true None; 
      Ctx false (Some w508) None None [] (ANd d551 false) true None; 
      Ctx false (Some w512) None None [] (ANd d555 false) true None; 
      Ctx false (Some w516) None None [] (ANd d559 false) true None; 
      Ctx false (Some w520) None None [] (ANd d563 false) true None; 
      Ctx false None (Some w7) None [] (ANd d524 false) true (Some w7); 
      Ctx false (Some w212) None None [] (ANd d566 false) true None; 
      Ctx false (Some w527) None None [] (ANd d570 false) true None; 
      Ctx false (Some w531) None None [] (ANd d574 false) true None; 
      Ctx false None None None [] (ANd d566 false) true None]
  | F_parse_in_operator => [
      Ctx false (Some w93) None None [(ANd d147 false)] (ANd d577 false) true None]
  | F_parse_is_distinct_from_operator => [
      Ctx false (Some w101) (Some w36) (Some w49) [(ANd d147 false)] (ANd d580 false) true None; 
      Ctx false (Some w101) (Some w49) None [(ANd d147 false)] (ANd d583 false) true None]
  | F_parse_keyword_with_grouped_exprs => [
      Ctx false (Some w584) None None [(ABo (Some false))] (ANd d588 false) true None; 
      Ctx false (Some w589) None None [(ABo (Some false))] (ANd d591 false) true None; 
      Ctx false (Some w592) None None [(ABo (Some true))] (ANd d594 false) true None; 
      Ctx false None None None [(ABo (Some false))] (ANd d596 false) true None; 
      Ctx false None None None [(ABo (Some true))] (ANd d596 false) true None]
  | F_parse_keyword_with_statements => [
      Ctx false (Some w597) None None [(ASs ["END"])] (ANd d602 false) true (Some w603); 
      Ctx false (Some w604) None None [(ASs ["UNTIL"])] (ANd d606 false) true (Some w607); 
      Ctx false (Some w608) None None [(ASs ["END"])] (ANd d610 false) true (Some w603); 
      Ctx false None None None [(ASs ["END"])] (ANd d612 false) true (Some w603); 
      Ctx false None None None [(ASs ["ELSEIF"; "ELSE"; "END"])] (ANd d612 false) true (Some w613)]
  | F_parse_n_keywords => [
      Ctx false (Some w614) (Some w512) None [ASc] (AVc m4 LAny) true None; 
      Ctx false (Some w614) (Some w495) None [ASc] (AVc m4 LAny) true None; 
      Ctx false (Some w614) (Some w615) None [ASc] (AVc m4 LAny) true None; 
      Ctx false (Some w614) (Some w500) None [ASc] (AVc m4 LAny) true None; 
      Ctx false (Some w614) (Some w616) None [ASc] (AVc m4 LAny) true None; 
      Ctx false (Some w614) (Some w504) None [ASc] (AVc m4 LAny) true None; 
      Ctx false (Some w617) (Some w618) None [ASc] (AVc m4 LAny) true None; 
      Ctx false (Some w614) (Some w619) None [ASc] (AVc m4 LAny) true None; 
      Ctx false (Some w620) None None [ASc] (AVc m4 LAny) true None; 
      Ctx false (Some w616) None None [ASc] (AVc m4 LAny) true None; 
      Ctx false None (Some w616) None [ASc] (AVc m4 LAny) true None; 
      Ctx false (Some w614) None None [ASc] (AVc m4 LAny) true None; 
      Ctx false (Some w621) None None [ASc] (AVc m4 LAny) true None; 
      Ctx false (Some w617) None None [ASc] (AVc m4 LAny) true None; 
      Ctx false (Some w622) None None [ASc] (AVc m4 LAny) true None; 
      Ctx false (Some w623) None None [ASc] (AVc m4 LAny) true None; 
      Ctx false (Some w603) None None [ASc] (AVc m4 LAny) true None; 
      Ctx false (Some w624) None None [ASc] (AVc m4 LAny) true None; 
      Ctx false (Some w36) None None [ASc] (AVc m4 LAny) true None; 
      Ctx false (Some w625) None None [ASc] (AVc m4 LAny) true None; 
      Ctx false (Some w626) None None [ASc] (AVc m4 LAny) true None; 
      Ctx false (Some w627) None None [ASc] (AVc m4 LAny) true None; 
      Ctx false None None None [ASc] (AVc m4 LAny) true None]
  | F_parse_set_operator => [
      Ctx false (Some w628) None None [(ANd d629 false)] (ANd d632 false) true None]
  | F_parse_statement => [
      Ctx false None None None [(ABo (Some true))] (ANd d964 false) true None; 
      Ctx false None None None [(ABo (Some false))] (ANd d1156 false) true None]
  | F_parse_table => [
      Ctx false None None None [(ABo (Some true))] (ANd d1188 false) true None; 
      Ctx false None None None [(ABo (Some false))] (ANd d1189 false) true None]
  | F_parse_type => [
      Ctx false (Some w139) None None [(ABo (Some false)); (ABo (Some false))] (ANd d1195 false) true None; 
      Ctx false (Some w116) None None [(ABo (Some false)); (ABo (Some false))] (ANd d1199 false) true None; 
      Ctx false (Some w26) None None [(ABo (Some false)); (ABo (Some false))] (ANd d1201 false) true None; 
      Ctx false None None None [(ABo (Some false)); (ABo (Some false))] (ANd d1205 false) true None; 
      Ctx false None None None [(ABo (Some true)); (ABo (Some false))] (ANd d1208 false) true None; 
      Ctx false None None None [(ABo (Some false)); (ABo (Some true))] (ANd d1211 false) true None]
  | F_parse_window_expr => [
      Ctx false None None None [] (ANd d1216 false) true None]
  | F_parse_with_connection_clause => [
      Ctx false (Some w21) (Some w871) None [] (ANd d1219 false) true None; 
      Ctx false (Some w21) None None [] (ANd d1222 false) true None]
  | F_parse_with_clause => [
      Ctx false (Some w21) None None [] (ANd d1228 false) true (Some w1229)]
  | F_parse_window_clause => [
      Ctx false (Some w127) None None [] (ANd d1234 false) true None]
  | F_parse_xxxby_exprs => [
      Ctx false (Some w55) None None [] (ANd d1238 false) true None; 
      Ctx false (Some w623) None None [] (ANd d1240 false) true None; 
      Ctx false (Some w773) None None [] (ANd d1242 false) true None]
  | F_parse_groupby_exprs => [
      Ctx false (Some w123) None None [(ABo (Some false))] (ANd d1246 false) true None; 
      Ctx false (Some w123) None None [(ABo (Some true))] (ANd d1246 false) true None]
  | F_parse_table_sample_ratio => [
      Ctx false None None None [] (ANd d1250 false) true None]
  | F_parse_pivot_config_clause => [
      Ctx false (Some w1251) None None [] (ANd d1255 false) true None; 
      Ctx false None None None [] (ANd d1257 false) true None]
  | F_parse_unpivot_config_clause => [
      Ctx false (Some w46) None None [] (ANd d1262 false) true None; 
      Ctx false None None None [] (ANd d1264 false) true None]
  | F_parse_match_recognize_clause => [
      Ctx false (Some w12) (Some w1251) None [] (ANd d1269 false) true None; 
      Ctx false (Some w12) None None [] (ANd d1272 false) true None]
  | F_parse_match_recognize_config => [
      Ctx false (Some w1251) None None [] (ANd d1280 false) true None; 
      Ctx false None None None [] (ANd d1282 false) true None]
  | F_parse_by_name_clause => [
      Ctx false (Some w131) None None [] (ANd d1285 false) true None]
  | F_parse_pattern_clause => [
      Ctx false (Some w1276) None None [] (ANd d1290 false) true None]
  | F_parse_grouped_pattern => [
      Ctx false (Some w46) None None [] (ANd d1295 false) true None]
  | F_parse_pattern => [
      Ctx false None None None [] (ANd d1303 false) true None]
  | F_parse_quantifier => [
      Ctx false (Some w1304) None None [] (ANd d1309 false) true None]
  | F_parse_corresponding_clause => [
      Ctx false (Some w133) None None [] (ANd d1315 false) true None]
  | F_push_trailing_alias => [
      Ctx true None None None [(ANd d1322 false)] (ANd d1325 false) true None; 
      Ctx true None None None [(ANd d1330 false)] (ANd d1333 false) true None; 
      Ctx true None None None [(ANd d1343 false)] (ANd d1348 false) true None; 
      Ctx true None None None [(ANd d1360 false)] (ANd d1367 false) true None; 
      Ctx true None None None [(ANd d1370 false)] (ANd d1269 false) true None; 
      Ctx true None None None [(ANd d1389 false)] (ANd d1413 false) true None; 
      Ctx true None None None [(ANd d1417 false)] (ANd d1420 false) true None; 
      Ctx true None None None [(ANd d1424 false)] (ANd d1427 false) true None; 
      Ctx true None None None [(ANd d1430 false)] (ANd d1433 false) true None; 
      Ctx true None None None [(ANd d1436 false)] (ANd d1439 false) true None; 
      Ctx true None None None [(ANd d1460 false)] (ANd d1477 false) true None; 
      Ctx true None None None [(ANd d1489 false)] (ANd d1498 false) true None; 
      Ctx true None None None [(ANd d1501 false)] (ANd d1272 false) true None; 
      Ctx true None None None [(ANd d1523 false)] (ANd d1542 false) true None; 
      Ctx true None None None [(ANd d1547 false)] (ANd d1554 false) true None; 
      Ctx true None None None [(ANd d1561 false)] (ANd d1576 false) true None; 
      Ctx true None None None [(ANd d1578 false)] (ANd d1580 false) true None; 
      Ctx true None None None [(ANd d1583 false)] (ANd d1586 false) true None]
  | F_parse_select_statement => [
      Ctx false (Some w46) None None [(ABo (Some false)); (ABo (Some false))] (ANd d1587 false) true None; 
      Ctx false (Some w21) None None [(ABo (Some false)); (ABo (Some true))] (ANd d1595 false) true None; 
      Ctx false (Some w1596) None None [(ABo (Some false)); (ABo (Some true))] (ANd d1599 false) true None; 
      Ctx false (Some w1600) None None [(ABo (Some false)); (ABo (Some true))] (ANd d1601 false) true None; 
      Ctx false (Some w1602) None None [(ABo (Some true)); (ABo (Some true))] (ANd d1603 false) true None; 
      Ctx false (Some w1602) None None [(ABo (Some false)); (ABo (Some true))] (ANd d1604 false) true None; 
      Ctx false (Some w1605) None None [(ABo (Some true)); (ABo (Some true))] (ANd d1612 false) true None; 
      Ctx false (Some w1605) None None [(ABo (Some false)); (ABo (Some true))] (ANd d1618 false) true None; 
      Ctx false None None None [(ABo (Some false)); (ABo (Some true))] (ANd d1620 false) true None; 
      Ctx false None None None [(ABo (Some false)); (ABo (Some false))] (ANd d1621 false) true None]
  | F_parse_from_statement => [
      Ctx false (Some w72) None None [] (ANd d1624 false) true None]
  | F_parse_pipe_statement => [
      Ctx false (Some w111) None None [(ANd d1625 false)] (ANd d1626 false) true None]
  | F_parse_select_pipe_operator => [
      Ctx false (Some w1596) None None [] (ANd d1629 false) true None]
  | F_parse_limit_pipe_operator => [
      Ctx false (Some w53) None None [] (ANd d1633 false) true None]
  | F_parse_aggregate_pipe_operator => [
      Ctx false (Some w724) None None [] (ANd d1636 false) true None]
  | F_parse_union_pipe_operator => [
      Ctx false (Some w1637) None None [] (ANd d1641 false) true None; 
      Ctx false (Some w1642) None None [] (ANd d1645 false) true None]
  | F_parse_join_pipe_operator => [
      Ctx false (Some w1642) None (Some w1646) [] (ANd d1650 false) true None; 
      Ctx false (Some w1642) (Some w1646) None [] (ANd d1653 false) true None; 
      Ctx false (Some w1646) None None [] (ANd d1656 false) true None]
  | F_parse_tablesample_pipe_operator => [
      Ctx false (Some w17) None None [] (ANd d1661 false) true None]
  | F_parse_pivot_pipe_operator => [
      Ctx false (Some w15) None None [] (ANd d1433 false) true None]
  | F_parse_unpivot_pipe_operator => [
      Ctx false (Some w19) None None [] (ANd d1439 false) true None]
  | F_parse_with_pipe_operator => [
      Ctx false (Some w21) None None [] (ANd d1663 false) true (Some w1229)]
  | F_parse_match_recognize_pipe_operator => [
      Ctx false (Some w12) None None [] (ANd d1665 false) true None]
  | F_parse_base_pipe_operator => [
      Ctx false (Some w55) None None [(ABo (Some true))] (ANd d1668 false) true None; 
      Ctx false (Some w1669) None None [(ABo (Some false))] (ANd d1672 false) true None]
  | F_parse_insert_statement => [
      Ctx false (Some w861) None None [(ABo (Some true))] (ANd d1673 false) true None; 
      Ctx false (Some w861) None None [(ABo (Some false))] (ANd d1674 false) true None]
  | F_parse_delete_statement => [
      Ctx false (Some w794) None None [(ABo (Some true))] (ANd d1675 false) true None; 
      Ctx false (Some w794) None None [(ABo (Some false))] (ANd d1676 false) true None]
  | F_parse_truncate_statement => [
      Ctx false (Some w938) None None [(ABo (Some true))] (ANd d1677 false) true None; 
      Ctx false (Some w938) None None [(ABo (Some false))] (ANd d1678 false) true None]
  | F_parse_update_statement => [
      Ctx false (Some w950) None None [(ABo (Some true))] (ANd d1679 false) true None; 
      Ctx false (Some w950) None None [(ABo (Some false))] (ANd d1680 false) true None]
  | F_parse_merge_statement => [
      Ctx false (Some w884) None None [(ABo (Some true))] (ANd d1681 false) true None; 
      Ctx false (Some w884) None None [(ABo (Some false))] (ANd d1681 false) true None]
  | F_parse_create_schema_statement => [
      Ctx false (Some w722) (Some w508) None [(ABo (Some true))] (ANd d1684 false) true None; 
      Ctx false (Some w722) None (Some w508) [(ABo (Some true))] (ANd d1685 false) true None; 
      Ctx false (Some w722) (Some w508) None [(ABo (Some false))] (ANd d1688 false) true None; 
      Ctx false (Some w722) None (Some w508) [(ABo (Some false))] (ANd d1689 false) true None; 
      Ctx false (Some w722) None None [(ABo (Some true))] (ANd d1685 false) true None; 
      Ctx false (Some w722) None None [(ABo (Some false))] (ANd d1689 false) true None]
  | F_parse_create_search_index_statement => [
      Ctx false (Some w722) (Some w619) None [(ABo (Some true))] (ANd d1692 false) true None; 
      Ctx false (Some w722) None (Some w619) [(ABo (Some true))] (ANd d1693 false) true None; 
      Ctx false (Some w722) (Some w619) None [(ABo (Some false))] (ANd d1696 false) true None; 
      Ctx false (Some w722) None (Some w619) [(ABo (Some false))] (ANd d1697 false) true None; 
      Ctx false (Some w722) None None [(ABo (Some true))] (ANd d1693 false) true None; 
      Ctx false (Some w722) None None [(ABo (Some false))] (ANd d1697 false) true None]
  | F_parse_create_table_statement => [
      Ctx false (Some w722) (Some w512) None [(ABo (Some true))] (ANd d1700 false) true None; 
      Ctx false (Some w722) None (Some w512) [(ABo (Some true))] (ANd d1701 false) true None; 
      Ctx false (Some w722) (Some w512) None [(ABo (Some false))] (ANd d1704 false) true None; 
      Ctx false (Some w722) None (Some w512) [(ABo (Some false))] (ANd d1705 false) true None; 
      Ctx false (Some w722) None None [(ABo (Some true))] (ANd d1701 false) true None; 
      Ctx false (Some w722) None None [(ABo (Some false))] (ANd d1705 false) true None]
  | F_parse_create_view_statement => [
      Ctx false (Some w722) (Some w495) None [(ABo (Some true))] (ANd d1708 false) true None; 
      Ctx false (Some w722) None (Some w495) [(ABo (Some true))] (ANd d1709 false) true None; 
      Ctx false (Some w722) (Some w495) None [(ABo (Some false))] (ANd d1712 false) true None; 
      Ctx false (Some w722) None (Some w495) [(ABo (Some false))] (ANd d1713 false) true None; 
      Ctx false (Some w722) None None [(ABo (Some true))] (ANd d1709 false) true None; 
      Ctx false (Some w722) None None [(ABo (Some false))] (ANd d1713 false) true None]
  | F_parse_create_function_statement => [
      Ctx false (Some w722) (Some w512) (Some w615) [(ABo (Some true))] (ANd d1718 false) true None; 
      Ctx false (Some w722) (Some w512) (Some w615) [(ABo (Some false))] (ANd d1721 false) true None; 
      Ctx false (Some w722) (Some w615) None [(ABo (Some true))] (ANd d1725 false) true None; 
      Ctx false (Some w722) None (Some w512) [(ABo (Some true))] (ANd d1726 false) true None; 
      Ctx false (Some w722) None (Some w615) [(ABo (Some true))] (ANd d1726 false) true None; 
      Ctx false (Some w722) (Some w615) None [(ABo (Some false))] (ANd d1729 false) true None; 
      Ctx false (Some w722) None (Some w512) [(ABo (Some false))] (ANd d1730 false) true None; 
      Ctx false (Some w722) None (Some w615) [(ABo (Some false))] (ANd d1730 false) true None; 
      Ctx false (Some w722) None None [(ABo (Some true))] (ANd d1726 false) true None; 
      Ctx false (Some w722) None None [(ABo (Some false))] (ANd d1730 false) true None]
  | F_parse_create_procedure_statement => [
      Ctx false (Some w722) (Some w500) None [(ABo (Some true))] (ANd d1733 false) true None; 
      Ctx false (Some w722) None (Some w500) [(ABo (Some true))] (ANd d1734 false) true None; 
      Ctx false (Some w722) (Some w500) None [(ABo (Some false))] (ANd d1737 false) true None; 
      Ctx false (Some w722) None (Some w500) [(ABo (Some false))] (ANd d1738 false) true None; 
      Ctx false (Some w722) None None [(ABo (Some true))] (ANd d1734 false) true None; 
      Ctx false (Some w722) None None [(ABo (Some false))] (ANd d1738 false) true None]
  | F_parse_create_row_access_policy_statement => [
      Ctx false (Some w722) (Some w616) None [(ABo (Some true))] (ANd d1741 false) true None; 
      Ctx false (Some w722) None (Some w616) [(ABo (Some true))] (ANd d1742 false) true None; 
      Ctx false (Some w722) (Some w616) None [(ABo (Some false))] (ANd d1745 false) true None; 
      Ctx false (Some w722) None (Some w616) [(ABo (Some false))] (ANd d1746 false) true None; 
      Ctx false (Some w722) None None [(ABo (Some true))] (ANd d1742 false) true None; 
      Ctx false (Some w722) None None [(ABo (Some false))] (ANd d1746 false) true None]
  | F_parse_create_model_statement => [
      Ctx false (Some w722) (Some w504) None [(ABo (Some true))] (ANd d1749 false) true None; 
      Ctx false (Some w722) None (Some w504) [(ABo (Some true))] (ANd d1750 false) true None; 
      Ctx false (Some w722) (Some w504) None [(ABo (Some false))] (ANd d1753 false) true None; 
      Ctx false (Some w722) None (Some w504) [(ABo (Some false))] (ANd d1754 false) true None; 
      Ctx false (Some w722) None None [(ABo (Some true))] (ANd d1750 false) true None; 
      Ctx false (Some w722) None None [(ABo (Some false))] (ANd d1754 false) true None]
  | F_parse_alter_schema_statement => [
      Ctx false (Some w633) (Some w508) None [(ABo (Some true))] (ANd d1757 false) true None; 
      Ctx false (Some w633) None (Some w508) [(ABo (Some true))] (ANd d1760 false) true None; 
      Ctx false (Some w633) (Some w508) None [(ABo (Some false))] (ANd d1763 false) true None; 
      Ctx false (Some w633) None (Some w508) [(ABo (Some false))] (ANd d1766 false) true None; 
      Ctx false (Some w633) None None [(ABo (Some true))] (ANd d1767 false) true None; 
      Ctx false (Some w633) None None [(ABo (Some false))] (ANd d1768 false) true None]
  | F_parse_alter_table_statement => [
      Ctx false (Some w633) (Some w512) None [(ABo (Some true))] (ANd d1771 false) true None; 
      Ctx false (Some w633) None (Some w512) [(ABo (Some true))] (ANd d1774 false) true None; 
      Ctx false (Some w633) (Some w512) None [(ABo (Some false))] (ANd d1777 false) true None; 
      Ctx false (Some w633) None (Some w512) [(ABo (Some false))] (ANd d1780 false) true None; 
      Ctx false (Some w633) None None [(ABo (Some true))] (ANd d1781 false) true None; 
      Ctx false (Some w633) None None [(ABo (Some false))] (ANd d1782 false) true None]
  | F_parse_alter_column_statement => [
      Ctx false (Some w633) (Some w1783) None [(ABo (Some true))] (ANd d1786 false) true None; 
      Ctx false (Some w633) None (Some w1783) [(ABo (Some true))] (ANd d1789 false) true None; 
      Ctx false (Some w633) (Some w1783) None [(ABo (Some false))] (ANd d1792 false) true None; 
      Ctx false (Some w633) None (Some w1783) [(ABo (Some false))] (ANd d1795 false) true None; 
      Ctx false (Some w633) None None [(ABo (Some true))] (ANd d1796 false) true None; 
      Ctx false (Some w633) None None [(ABo (Some false))] (ANd d1797 false) true None]
  | F_parse_alter_vector_index_statement => [
      Ctx false (Some w633) (Some w1798) None [(ABo (Some true))] (ANd d1801 false) true None; 
      Ctx false (Some w633) None (Some w1798) [(ABo (Some true))] (ANd d1802 false) true None; 
      Ctx false (Some w633) (Some w1798) None [(ABo (Some false))] (ANd d1805 false) true None; 
      Ctx false (Some w633) None (Some w1798) [(ABo (Some false))] (ANd d1806 false) true None; 
      Ctx false (Some w633) None None [(ABo (Some true))] (ANd d1802 false) true None; 
      Ctx false (Some w633) None None [(ABo (Some false))] (ANd d1806 false) true None]
  | F_parse_alter_view_statement => [
      Ctx false (Some w633) (Some w495) None [(ABo (Some true))] (ANd d1809 false) true None; 
      Ctx false (Some w633) None (Some w495) [(ABo (Some true))] (ANd d1810 false) true None; 
      Ctx false (Some w633) (Some w495) None [(ABo (Some false))] (ANd d1813 false) true None; 
      Ctx false (Some w633) None (Some w495) [(ABo (Some false))] (ANd d1814 false) true None; 
      Ctx false (Some w633) None None [(ABo (Some true))] (ANd d1810 false) true None; 
      Ctx false (Some w633) None None [(ABo (Some false))] (ANd d1814 false) true None]
  | F_parse_alter_organization_statement => [
      Ctx false (Some w633) (Some w1815) None [(ABo (Some true))] (ANd d1818 false) true None; 
      Ctx false (Some w633) None (Some w1815) [(ABo (Some true))] (ANd d1821 false) true None; 
      Ctx false (Some w633) (Some w1815) None [(ABo (Some false))] (ANd d1824 false) true None; 
      Ctx false (Some w633) None (Some w1815) [(ABo (Some false))] (ANd d1827 false) true None; 
      Ctx false (Some w633) None None [(ABo (Some true))] (ANd d1828 false) true None; 
      Ctx false (Some w633) None None [(ABo (Some false))] (ANd d1829 false) true None]
  | F_parse_alter_project_statement => [
      Ctx false (Some w633) (Some w516) None [(ABo (Some true))] (ANd d1832 false) true None; 
      Ctx false (Some w633) None (Some w516) [(ABo (Some true))] (ANd d1835 false) true None; 
      Ctx false (Some w633) (Some w516) None [(ABo (Some false))] (ANd d1838 false) true None; 
      Ctx false (Some w633) None (Some w516) [(ABo (Some false))] (ANd d1841 false) true None; 
      Ctx false (Some w633) None None [(ABo (Some true))] (ANd d1842 false) true None; 
      Ctx false (Some w633) None None [(ABo (Some false))] (ANd d1843 false) true None]
  | F_parse_alter_bicapacity_statement => [
      Ctx false (Some w633) (Some w520) None [(ABo (Some true))] (ANd d1846 false) true None; 
      Ctx false (Some w633) None (Some w520) [(ABo (Some true))] (ANd d1849 false) true None; 
      Ctx false (Some w633) (Some w520) None [(ABo (Some false))] (ANd d1852 false) true None; 
      Ctx false (Some w633) None (Some w520) [(ABo (Some false))] (ANd d1855 false) true None; 
      Ctx false (Some w633) None None [(ABo (Some true))] (ANd d1856 false) true None; 
      Ctx false (Some w633) None None [(ABo (Some false))] (ANd d1857 false) true None]
  | F_parse_alter_reservation_statement => [
      Ctx false (Some w633) (Some w527) None [(ABo (Some true))] (ANd d1860 false) true None; 
      Ctx false (Some w633) None (Some w527) [(ABo (Some true))] (ANd d1863 false) true None; 
      Ctx false (Some w633) (Some w527) None [(ABo (Some false))] (ANd d1866 false) true None; 
      Ctx false (Some w633) None (Some w527) [(ABo (Some false))] (ANd d1869 false) true None; 
      Ctx false (Some w633) None None [(ABo (Some true))] (ANd d1870 false) true None; 
      Ctx false (Some w633) None None [(ABo (Some false))] (ANd d1871 false) true None]
  | F_parse_alter_model_statement => [
      Ctx false (Some w633) (Some w504) None [(ABo (Some true))] (ANd d1874 false) true None; 
      Ctx false (Some w633) None (Some w504) [(ABo (Some true))] (ANd d1877 false) true None; 
      Ctx false (Some w633) (Some w504) None [(ABo (Some false))] (ANd d1880 false) true None; 
      Ctx false (Some w633) None (Some w504) [(ABo (Some false))] (ANd d1883 false) true None; 
      Ctx false (Some w633) None None [(ABo (Some true))] (ANd d1884 false) true None; 
      Ctx false (Some w633) None None [(ABo (Some false))] (ANd d1885 false) true None]
  | F_parse_drop_row_access_policy_statement => [
      Ctx false (Some w617) (Some w1886) None [(ABo (Some true))] (ANd d1887 false) true None; 
      Ctx false (Some w617) (Some w1886) None [(ABo (Some false))] (ANd d1888 false) true None]
  | F_parse_drop_statement_general => [
      Ctx false (Some w617) None None [(ABo (Some true))] (ANd d1889 false) true None; 
      Ctx false (Some w617) None None [(ABo (Some false))] (ANd d1890 false) true None]
  | F_parse_undrop_statement => [
      Ctx false (Some w945) None None [(ABo (Some true))] (ANd d1891 false) true None; 
      Ctx false (Some w945) None None [(ABo (Some false))] (ANd d1892 false) true None]
  | F_parse_grant_statement => [
      Ctx false (Some w762) None None [(ABo (Some true))] (ANd d1893 false) true None; 
      Ctx false (Some w762) None None [(ABo (Some false))] (ANd d1894 false) true None]
  | F_parse_revoke_statement => [
      Ctx false (Some w906) None None [(ABo (Some true))] (ANd d1895 false) true None; 
      Ctx false (Some w906) None None [(ABo (Some false))] (ANd d1896 false) true None]
  | F_parse_create_reservation_statement => [
      Ctx false (Some w722) (Some w531) None [(ABo (Some true))] (ANd d1899 false) true None; 
      Ctx false (Some w722) None (Some w531) [(ABo (Some true))] (ANd d1902 false) true None; 
      Ctx false (Some w722) (Some w531) None [(ABo (Some false))] (ANd d1905 false) true None; 
      Ctx false (Some w722) None (Some w531) [(ABo (Some false))] (ANd d1908 false) true None; 
      Ctx false (Some w722) None None [(ABo (Some true))] (ANd d1909 false) true None; 
      Ctx false (Some w722) None None [(ABo (Some false))] (ANd d1910 false) true None]
  | F_parse_declare_statement => [
      Ctx false (Some w787) None None [(ABo (Some true))] (ANd d1911 false) true None; 
      Ctx false (Some w787) None None [(ABo (Some false))] (ANd d1912 false) true None]
  | F_parse_set_statement => [
      Ctx false (Some w641) None None [(ABo (Some true))] (ANd d1913 false) true None; 
      Ctx false (Some w641) None None [(ABo (Some false))] (ANd d1914 false) true None]
  | F_parse_execute_statement => [
      Ctx false (Some w813) None None [(ABo (Some true))] (ANd d1915 false) true None; 
      Ctx false (Some w813) None None [(ABo (Some false))] (ANd d1916 false) true None]
  | F_parse_begin_statement => [
      Ctx false (Some w693) None None [(ABo (Some true))] (ANd d1917 false) true None; 
      Ctx false (Some w693) None None [(ABo (Some false))] (ANd d1918 false) true None]
  | F_parse_if_statement => [
      Ctx false (Some w620) None None [(ABo (Some true))] (ANd d1919 false) true None; 
      Ctx false (Some w620) None None [(ABo (Some false))] (ANd d1920 false) true None]
  | F_parse_labeled_statement => [
      Ctx false None None None [(ABo (Some true))] (ANd d1921 false) true None; 
      Ctx false None None None [(ABo (Some false))] (ANd d1922 false) true None]
  | F_parse_break_continue_statement => [
      Ctx false (Some w701) None None [(ABo (Some true))] (ANd d1923 false) true None; 
      Ctx false (Some w701) None None [(ABo (Some false))] (ANd d1924 false) true None]
  | F_parse_loop_statement => [
      Ctx false (Some w597) None None [(ABo (Some true))] (ANd d1925 false) true None; 
      Ctx false (Some w597) None None [(ABo (Some false))] (ANd d1926 false) true None]
  | F_parse_repeat_statement => [
      Ctx false (Some w604) None None [(ABo (Some true))] (ANd d1927 false) true None; 
      Ctx false (Some w604) None None [(ABo (Some false))] (ANd d1928 false) true None]
  | F_parse_while_statement => [
      Ctx false (Some w957) None None [(ABo (Some true))] (ANd d1929 false) true None; 
      Ctx false (Some w957) None None [(ABo (Some false))] (ANd d1930 false) true None]
  | F_parse_single_token_statement => [
      Ctx false (Some w927) None None [(ABo (Some true))] (ANd d1931 false) true None; 
      Ctx false (Some w927) None None [(ABo (Some false))] (ANd d1932 false) true None]
  | F_parse_for_statement => [
      Ctx false (Some w9) None None [(ABo (Some true))] (ANd d1933 false) true None; 
      Ctx false (Some w9) None None [(ABo (Some false))] (ANd d1934 false) true None]
  | F_parse_transaction_statement => [
      Ctx false (Some w693) None None [(ABo (Some true))] (ANd d1936 false) true None; 
      Ctx false (Some w693) None None [(ABo (Some false))] (ANd d1938 false) true None; 
      Ctx false (Some w1939) None None [(ABo (Some true))] (ANd d1941 false) true None; 
      Ctx false (Some w1939) None None [(ABo (Some false))] (ANd d1943 false) true None]
  | F_parse_raise_statement => [
      Ctx false (Some w895) None None [(ABo (Some true))] (ANd d1944 false) true None; 
      Ctx false (Some w895) None None [(ABo (Some false))] (ANd d1945 false) true None]
  | F_parse_case_statement => [
      Ctx false (Some w714) None None [(ABo (Some true))] (ANd d1946 false) true None; 
      Ctx false (Some w714) None None [(ABo (Some false))] (ANd d1947 false) true None]
  | F_parse_call_statement => [
      Ctx false (Some w707) None None [(ABo (Some true))] (ANd d1948 false) true None; 
      Ctx false (Some w707) None None [(ABo (Some false))] (ANd d1949 false) true None]
  | F_parse_assert_satement => [
      Ctx false (Some w687) None None [(ABo (Some true))] (ANd d1950 false) true None; 
      Ctx false (Some w687) None None [(ABo (Some false))] (ANd d1951 false) true None]
  | F_parse_export_data_statement => [
      Ctx false (Some w823) (Some w621) None [(ABo (Some true))] (ANd d1952 false) true None; 
      Ctx false (Some w823) (Some w621) None [(ABo (Some false))] (ANd d1953 false) true None]
  | F_parse_export_model_statement => [
      Ctx false (Some w823) None None [(ABo (Some true))] (ANd d1954 false) true None; 
      Ctx false (Some w823) None None [(ABo (Some false))] (ANd d1955 false) true None]
  | F_parse_load_statement => [
      Ctx false (Some w869) None None [(ABo (Some true))] (ANd d1956 false) true None; 
      Ctx false (Some w869) None None [(ABo (Some false))] (ANd d1957 false) true None]
  end.
