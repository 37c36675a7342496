(** The test packages of /repo/test/tests/fill as the generator sees them: the type
    declarations of each file with their comments and tags, what the packages they import
    declare, and nothing else. Written by a script from the sources; Golden.v compares the
    templates' output with the generated files beside them. *)
From Coq Require Import List Ascii String ZArith NArith Bool.
From Verif Require Import Base Num Json Types Gen SamplesGen.
Import ListNotations.
Local Open Scope list_scope.

Fixpoint by_name {A} (l : list (bytes * bytes * A)) (p n : bytes) : option A :=
  match l with
  | [] => None
  | (a, b, t) :: l' => if (beq a p && beq b n)%bool then Some t else by_name l' p n
  end.
Definition no_known (p n : bytes) : option texpr := None.

(** test/tests/fill/test_any/07_anyof_fld.go *)
Definition g_any : gofile := [
  mkDecl (Some [$"// TestAllOf01 tests allOf"; $"//"; $"//json:custom,decode"]) [mkSpec $"TestAllOf01" None (XStruct [mkF [] (XIdent $"TestAllOfFirstIsOne") None; mkF [] (XIdent $"TestAllOfSecond") None; mkF [] (XIdent $"TestAllOfThird") None])];
  mkDecl (Some [$"// TestAllOfFirstIsOne tests oneOf"; $"//"; $"//json:custom,decode"]) [mkSpec $"TestAllOfFirstIsOne" None (XStruct [mkF [] (XIdent $"OneOf") (Some $"`json:""value""`")])];
  mkDecl (Some [$"// OneOf tests oneOf with"]) [mkSpec $"OneOf" None XOther];
  mkDecl None [mkSpec $"TestOneOfInteger" (Some [$"//json:encode"]) (XIdent $"int64"); mkSpec $"TestOneOfString" (Some [$"//json:encode"]) (XIdent $"string"); mkSpec $"TestOneOfStruct" (Some [$"//json:encode"]) (XStruct [mkF [$"Class"] (XIdent $"string") (Some $"`json:""class""`"); mkF [$"Value"] (XIdent $"float64") (Some $"`json:""width""`")])];
  mkDecl None [mkSpec $"TestAllOfSecond" (Some [$"// TestAllOfSecond tests allOf option"; $"//json:optional"]) (XStruct [mkF [$"Comment"] (XIdent $"string") (Some $"`json:""comment""`"); mkF [$"Level"] (XIdent $"int64") (Some $"`json:""level,omitempty""`")]); mkSpec $"TestAllOfThird" (Some [$"// TestAllOfThird tests allOf option"; $"//json:optional"]) (XStruct [mkF [$"Command"] (XIdent $"string") (Some $"`json:""command,omitempty""`"); mkF [$"Range"] (XIdent $"int64") (Some $"`json:""range,omitempty""`")])]].
(** test/tests/fill/test_bool/11_bool_fld.go *)
Definition g_bool : gofile := [
  mkDecl (Some [$"// TestBool01 tests bool"; $"//"; $"//json:strict"]) [mkSpec $"TestBool01" None (XStruct [mkF [$"Bool"] (XIdent $"bool") (Some $"`json:""bl""`"); mkF [$"BlMaybe"] (XIdent $"bool") (Some $"`json:""mb,omitempty""`"); mkF [$"RefBool"] (XStar (XIdent $"bool")) (Some $"`json:""refBool""`"); mkF [$"RefMaybe"] (XStar (XIdent $"bool")) (Some $"`json:""refMaybe,omitempty""`"); mkF [$"DefBool"] (XIdent $"bool") (Some $"`json:""defBool"" default:""true""`")])];
  mkDecl (Some [$"// TestBool02 tests bool"; $"//"; $"//json:optional"]) [mkSpec $"TestBool02" None (XStruct [mkF [$"I"] (XIdent $"TestInhBool") (Some $"`json:""i""`"); mkF [$"X"] (XIdent $"TestInhBool") (Some $"`json:""x,omitempty""`")])];
  mkDecl (Some [$"// TestInhBool tests inherited bool"; $"//"; $"//json:json"]) [mkSpec $"TestInhBool" None (XIdent $"bool")];
  mkDecl (Some [$"// TestBool03 tests bool"; $"//"; $"//json:strict"]) [mkSpec $"TestBool03" None (XStruct [mkF [$"Required"] (XIdent $"bool") (Some $"`json:""required""`")])];
  mkDecl (Some [$"// TestBool04 tests bool"; $"//"; $"//json:strict"]) [mkSpec $"TestBool04" None (XStruct [mkF [$"Required"] (XIdent $"bool") (Some $"`json:""required,required""`")])];
  mkDecl (Some [$"// TestBool05 tests bool"; $"//"; $"//json:strict"]) [mkSpec $"TestBool05" None (XStruct [mkF [$"Required"] (XIdent $"bool") (Some $"`json:""required,omitempty""`")])]].
(** test/tests/fill/test_extr/extr.go *)
Definition g_extr : gofile := [
  mkDecl None [mkSpec $"External" (Some [$"//json:optional"]) (XStruct [mkF [$"Test01"] (XSel $"test_any" $"TestAllOfSecond") (Some $"`json:""test1""`"); mkF [$"Test02"] (XSel $"test_string" $"TestStr01") (Some $"`json:""test2,omitempty""`")]); mkSpec $"ExternalStructSlice" (Some [$"//json:json"]) (XArray None (XSel $"test_string" $"TestStr01")); mkSpec $"ExternalStringSlice" (Some [$"//json:json"]) (XArray None (XSel $"test_string" $"FieldValueString"))]].
Definition g_extr_known : bytes -> bytes -> option texpr := by_name [($"test_any", $"TestAllOfSecond", (XStruct [mkF [$"Comment"] (XIdent $"string") (Some $"`json:""comment""`"); mkF [$"Level"] (XIdent $"int64") (Some $"`json:""level,omitempty""`")])); ($"test_string", $"TestStr01", (XStruct [mkF [$"Field"] (XIdent $"string") (Some $"`json:""field""`"); mkF [$"FieldRef"] (XStar (XIdent $"string")) (Some $"`json:""fieldRef""`"); mkF [$"DefRef"] (XStar (XIdent $"string")) (Some $"`json:""defRef"" default:""default""`")])); ($"test_string", $"FieldValueString", (XIdent $"string"))].
Definition g_extr_packages : bytes -> bytes -> option (list tdecl) := by_name [($"test_any", $"TestAllOfSecond", visit [
  mkDecl (Some [$"// TestAllOf01 tests allOf"; $"//"; $"//json:custom,decode"]) [mkSpec $"TestAllOf01" None (XStruct [mkF [] (XIdent $"TestAllOfFirstIsOne") None; mkF [] (XIdent $"TestAllOfSecond") None; mkF [] (XIdent $"TestAllOfThird") None])];
  mkDecl (Some [$"// TestAllOfFirstIsOne tests oneOf"; $"//"; $"//json:custom,decode"]) [mkSpec $"TestAllOfFirstIsOne" None (XStruct [mkF [] (XIdent $"OneOf") (Some $"`json:""value""`")])];
  mkDecl (Some [$"// OneOf tests oneOf with"]) [mkSpec $"OneOf" None XOther];
  mkDecl None [mkSpec $"TestOneOfInteger" (Some [$"//json:encode"]) (XIdent $"int64"); mkSpec $"TestOneOfString" (Some [$"//json:encode"]) (XIdent $"string"); mkSpec $"TestOneOfStruct" (Some [$"//json:encode"]) (XStruct [mkF [$"Class"] (XIdent $"string") (Some $"`json:""class""`"); mkF [$"Value"] (XIdent $"float64") (Some $"`json:""width""`")])];
  mkDecl None [mkSpec $"TestAllOfSecond" (Some [$"// TestAllOfSecond tests allOf option"; $"//json:optional"]) (XStruct [mkF [$"Comment"] (XIdent $"string") (Some $"`json:""comment""`"); mkF [$"Level"] (XIdent $"int64") (Some $"`json:""level,omitempty""`")]); mkSpec $"TestAllOfThird" (Some [$"// TestAllOfThird tests allOf option"; $"//json:optional"]) (XStruct [mkF [$"Command"] (XIdent $"string") (Some $"`json:""command,omitempty""`"); mkF [$"Range"] (XIdent $"int64") (Some $"`json:""range,omitempty""`")])]]); ($"test_string", $"TestStr01", visit [
  mkDecl (Some [$"//json:optional"]) [mkSpec $"TestStr01" None (XStruct [mkF [$"Field"] (XIdent $"string") (Some $"`json:""field""`"); mkF [$"FieldRef"] (XStar (XIdent $"string")) (Some $"`json:""fieldRef""`"); mkF [$"DefRef"] (XStar (XIdent $"string")) (Some $"`json:""defRef"" default:""default""`")])];
  mkDecl (Some [$"//json:strict"]) [mkSpec $"TestStr02" None (XStruct [mkF [$"Field"] (XIdent $"string") (Some $"`json:""field""`"); mkF [$"FieldRef"] (XStar (XIdent $"string")) (Some $"`json:""fieldRef""`"); mkF [$"String"] (XIdent $"FieldValueString") (Some $"`json:""string"" default:""value-foo-bar""`")])];
  mkDecl None [mkSpec $"FieldValueString" None (XIdent $"string")]]); ($"test_string", $"FieldValueString", visit [
  mkDecl (Some [$"//json:optional"]) [mkSpec $"TestStr01" None (XStruct [mkF [$"Field"] (XIdent $"string") (Some $"`json:""field""`"); mkF [$"FieldRef"] (XStar (XIdent $"string")) (Some $"`json:""fieldRef""`"); mkF [$"DefRef"] (XStar (XIdent $"string")) (Some $"`json:""defRef"" default:""default""`")])];
  mkDecl (Some [$"//json:strict"]) [mkSpec $"TestStr02" None (XStruct [mkF [$"Field"] (XIdent $"string") (Some $"`json:""field""`"); mkF [$"FieldRef"] (XStar (XIdent $"string")) (Some $"`json:""fieldRef""`"); mkF [$"String"] (XIdent $"FieldValueString") (Some $"`json:""string"" default:""value-foo-bar""`")])];
  mkDecl None [mkSpec $"FieldValueString" None (XIdent $"string")]])].
(** test/tests/fill/test_extr/nested.go *)
Definition g_extr2 : gofile := [
  mkDecl None [mkSpec $"ExternalNested" (Some [$"//json:optional"]) (XStruct [mkF [] (XSel $"test_any" $"TestAllOfSecond") None; mkF [] (XSel $"test_any" $"TestAllOfThird") None; mkF [] (XSel $"test_string" $"TestStr01") None])]].
Definition g_extr2_known : bytes -> bytes -> option texpr := by_name [($"test_any", $"TestAllOfSecond", (XStruct [mkF [$"Comment"] (XIdent $"string") (Some $"`json:""comment""`"); mkF [$"Level"] (XIdent $"int64") (Some $"`json:""level,omitempty""`")])); ($"test_any", $"TestAllOfThird", (XStruct [mkF [$"Command"] (XIdent $"string") (Some $"`json:""command,omitempty""`"); mkF [$"Range"] (XIdent $"int64") (Some $"`json:""range,omitempty""`")])); ($"test_string", $"TestStr01", (XStruct [mkF [$"Field"] (XIdent $"string") (Some $"`json:""field""`"); mkF [$"FieldRef"] (XStar (XIdent $"string")) (Some $"`json:""fieldRef""`"); mkF [$"DefRef"] (XStar (XIdent $"string")) (Some $"`json:""defRef"" default:""default""`")]))].
Definition g_extr2_packages : bytes -> bytes -> option (list tdecl) := by_name [($"test_any", $"TestAllOfSecond", visit [
  mkDecl (Some [$"// TestAllOf01 tests allOf"; $"//"; $"//json:custom,decode"]) [mkSpec $"TestAllOf01" None (XStruct [mkF [] (XIdent $"TestAllOfFirstIsOne") None; mkF [] (XIdent $"TestAllOfSecond") None; mkF [] (XIdent $"TestAllOfThird") None])];
  mkDecl (Some [$"// TestAllOfFirstIsOne tests oneOf"; $"//"; $"//json:custom,decode"]) [mkSpec $"TestAllOfFirstIsOne" None (XStruct [mkF [] (XIdent $"OneOf") (Some $"`json:""value""`")])];
  mkDecl (Some [$"// OneOf tests oneOf with"]) [mkSpec $"OneOf" None XOther];
  mkDecl None [mkSpec $"TestOneOfInteger" (Some [$"//json:encode"]) (XIdent $"int64"); mkSpec $"TestOneOfString" (Some [$"//json:encode"]) (XIdent $"string"); mkSpec $"TestOneOfStruct" (Some [$"//json:encode"]) (XStruct [mkF [$"Class"] (XIdent $"string") (Some $"`json:""class""`"); mkF [$"Value"] (XIdent $"float64") (Some $"`json:""width""`")])];
  mkDecl None [mkSpec $"TestAllOfSecond" (Some [$"// TestAllOfSecond tests allOf option"; $"//json:optional"]) (XStruct [mkF [$"Comment"] (XIdent $"string") (Some $"`json:""comment""`"); mkF [$"Level"] (XIdent $"int64") (Some $"`json:""level,omitempty""`")]); mkSpec $"TestAllOfThird" (Some [$"// TestAllOfThird tests allOf option"; $"//json:optional"]) (XStruct [mkF [$"Command"] (XIdent $"string") (Some $"`json:""command,omitempty""`"); mkF [$"Range"] (XIdent $"int64") (Some $"`json:""range,omitempty""`")])]]); ($"test_any", $"TestAllOfThird", visit [
  mkDecl (Some [$"// TestAllOf01 tests allOf"; $"//"; $"//json:custom,decode"]) [mkSpec $"TestAllOf01" None (XStruct [mkF [] (XIdent $"TestAllOfFirstIsOne") None; mkF [] (XIdent $"TestAllOfSecond") None; mkF [] (XIdent $"TestAllOfThird") None])];
  mkDecl (Some [$"// TestAllOfFirstIsOne tests oneOf"; $"//"; $"//json:custom,decode"]) [mkSpec $"TestAllOfFirstIsOne" None (XStruct [mkF [] (XIdent $"OneOf") (Some $"`json:""value""`")])];
  mkDecl (Some [$"// OneOf tests oneOf with"]) [mkSpec $"OneOf" None XOther];
  mkDecl None [mkSpec $"TestOneOfInteger" (Some [$"//json:encode"]) (XIdent $"int64"); mkSpec $"TestOneOfString" (Some [$"//json:encode"]) (XIdent $"string"); mkSpec $"TestOneOfStruct" (Some [$"//json:encode"]) (XStruct [mkF [$"Class"] (XIdent $"string") (Some $"`json:""class""`"); mkF [$"Value"] (XIdent $"float64") (Some $"`json:""width""`")])];
  mkDecl None [mkSpec $"TestAllOfSecond" (Some [$"// TestAllOfSecond tests allOf option"; $"//json:optional"]) (XStruct [mkF [$"Comment"] (XIdent $"string") (Some $"`json:""comment""`"); mkF [$"Level"] (XIdent $"int64") (Some $"`json:""level,omitempty""`")]); mkSpec $"TestAllOfThird" (Some [$"// TestAllOfThird tests allOf option"; $"//json:optional"]) (XStruct [mkF [$"Command"] (XIdent $"string") (Some $"`json:""command,omitempty""`"); mkF [$"Range"] (XIdent $"int64") (Some $"`json:""range,omitempty""`")])]]); ($"test_string", $"TestStr01", visit [
  mkDecl (Some [$"//json:optional"]) [mkSpec $"TestStr01" None (XStruct [mkF [$"Field"] (XIdent $"string") (Some $"`json:""field""`"); mkF [$"FieldRef"] (XStar (XIdent $"string")) (Some $"`json:""fieldRef""`"); mkF [$"DefRef"] (XStar (XIdent $"string")) (Some $"`json:""defRef"" default:""default""`")])];
  mkDecl (Some [$"//json:strict"]) [mkSpec $"TestStr02" None (XStruct [mkF [$"Field"] (XIdent $"string") (Some $"`json:""field""`"); mkF [$"FieldRef"] (XStar (XIdent $"string")) (Some $"`json:""fieldRef""`"); mkF [$"String"] (XIdent $"FieldValueString") (Some $"`json:""string"" default:""value-foo-bar""`")])];
  mkDecl None [mkSpec $"FieldValueString" None (XIdent $"string")]])].
(** test/tests/fill/test_inh/05_inheritance_fld.go *)
Definition g_inh : gofile := [
  mkDecl (Some [$"// TestInh01 tests inheritance"; $"//json:strict"]) [mkSpec $"TestInh01" None (XStruct [mkF [$"BreakFirst"] (XIdent $"int") (Some $"`json:""breakFirst,omitempty""`"); mkF [] (XIdent $"TestInh02") (Some $"`json:""injected,omitempty""`"); mkF [] (XIdent $"TestInh03") (Some $"`json:"",inline""`"); mkF [$"DateBegin"] (XSel $"time" $"Time") (Some $"`json:""date_begin""`"); mkF [$"Nested1"] (XIdent $"TestInh03") (Some $"`json:""nested1""`"); mkF [$"Nested2"] (XStar (XIdent $"TestInh03")) (Some $"`json:""nested2""`")])];
  mkDecl (Some [$"// TestInh02 tests inheritance"; $"//json:strict"]) [mkSpec $"TestInh02" None (XStruct [mkF [$"Int32"] (XIdent $"int32") (Some $"`json:""int_32,omitempty""`")])];
  mkDecl (Some [$"// TestInh03 tests inheritance"; $"//json:strict"]) [mkSpec $"TestInh03" None (XStruct [mkF [$"Int16"] (XIdent $"int16") (Some $"`json:""int_16""`"); mkF [$"Random"] (XIdent $"int") (Some $"`json:""random""`")])];
  mkDecl (Some [$"// TestNested01 tests inheritance"; $"//json:strict"]) [mkSpec $"TestNested01" None (XStruct [mkF [] (XIdent $"TestNested02") (Some $"`json:"",inline""`")])];
  mkDecl (Some [$"// TestNested02 tests inheritance"; $"//json:strict"]) [mkSpec $"TestNested02" None (XStruct [mkF [] (XIdent $"TestNested03") (Some $"`json:"",inline""`")])];
  mkDecl (Some [$"// TestNested03 tests inheritance"; $"//json:strict"]) [mkSpec $"TestNested03" None (XStruct [mkF [$"Field32"] (XIdent $"int32") (Some $"`json:""field_32""`")])];
  mkDecl (Some [$"// TestNested04 tests inheritance"; $"//json:strict"]) [mkSpec $"TestNested04" None (XIdent $"TestNested03")]].
(** test/tests/fill/test_map/06_map_fld.go *)
Definition g_map : gofile := [
  mkDecl (Some [$"// TestMap01 tests maps"; $"//"; $"//json:strict"]) [mkSpec $"TestMap01" None (XStruct [mkF [$"Tags"] (XMap (XIdent $"string") (XIdent $"string")) (Some $"`json:""tags""`"); mkF [$"Properties"] (XMap (XIdent $"string") (XIdent $"Property")) (Some $"`json:""properties,omitempty""`"); mkF [$"KeyTypedProperties"] (XMap (XIdent $"Key") (XIdent $"Property")) (Some $"`json:""key_typed_properties""`"); mkF [$"IntegerVal"] (XMap (XIdent $"Key") (XIdent $"int32")) (Some $"`json:""integerVal,omitempty""`"); mkF [$"FloatVal"] (XMap (XIdent $"Key") (XIdent $"float64")) (Some $"`json:""floatVal,omitempty""`"); mkF [$"UintVal"] (XMap (XIdent $"Key") (XStar (XIdent $"uint16"))) (Some $"`json:""uintVal,omitempty""`"); mkF [$"BoolVal"] (XMap (XIdent $"Key") (XIdent $"bool")) (Some $"`json:""bool,omitempty""`"); mkF [$"TypedVal"] (XMap (XIdent $"Key") (XIdent $"Val")) (Some $"`json:""typed-val,omitempty""`")])];
  mkDecl (Some [$"// Property tests properties"; $"//"; $"//json:strict"]) [mkSpec $"Property" None (XStruct [mkF [$"Name"] (XIdent $"string") (Some $"`json:""name""`"); mkF [$"Value"] (XIdent $"string") (Some $"`json:""value""`")])];
  mkDecl None [mkSpec $"Key" None (XIdent $"string")];
  mkDecl None [mkSpec $"Val" None (XIdent $"uint64")];
  mkDecl (Some [$"//json:optional"]) [mkSpec $"CampaignSites" None (XStruct [mkF [$"Excluded"] (XMap (XIdent $"string") (XIdent $"FieldValueString")) (Some $"`json:""excluded,omitempty""`"); mkF [$"Included"] (XMap (XIdent $"FieldValueString") (XIdent $"string")) (Some $"`json:""included,omitempty""`")])];
  mkDecl None [mkSpec $"FieldValueString" None (XIdent $"string")]].
(** test/tests/fill/test_nested/13_nested.go *)
Definition g_nested : gofile := [
  mkDecl None [mkSpec $"Root" (Some [$"//json:json"]) (XStruct [mkF [$"Meta"] (XIdent $"Meta") (Some $"`json:""meta""`"); mkF [$"Data"] (XIdent $"Middles") (Some $"`json:""data""`")]); mkSpec $"Middles" (Some [$"//json:json"]) (XArray None (XIdent $"Middle")); mkSpec $"Meta" (Some [$"//json:json"]) (XStruct [mkF [$"Count"] (XIdent $"int") (Some $"`json:""count""`")]); mkSpec $"Middle" (Some [$"//json:json"]) (XStruct [mkF [] (XIdent $"Personal") (Some $"`json:"",inline""`"); mkF [$"DateOfBorn"] (XSel $"time" $"Time") (Some $"`json:""dateOfBorn""`"); mkF [$"Tags"] (XIdent $"Tags") (Some $"`json:""tags""`")]); mkSpec $"Personal" (Some [$"//json:json"]) (XStruct [mkF [$"Name"] (XIdent $"UserName") (Some $"`json:""name""`"); mkF [$"Surname"] (XIdent $"UserSurname") (Some $"`json:""surname""`"); mkF [$"Patname"] (XStar (XIdent $"UserPatname")) (Some $"`json:""patname""`")]); mkSpec $"Tags" (Some [$"//json:json"]) (XMap (XIdent $"TagName") (XIdent $"TagValue")); mkSpec $"TagName" None (XIdent $"string"); mkSpec $"TagValue" None (XIdent $"string"); mkSpec $"UserName" None (XIdent $"string"); mkSpec $"UserSurname" None (XIdent $"string"); mkSpec $"UserPatname" None (XIdent $"string"); mkSpec $"CustomEvent" (Some [$"//json:marshal"]) (XStruct [mkF [] (XIdent $"WRRetry") (Some $"`json:"",inline""`")]); mkSpec $"WRRetry" (Some [$"// Field with the same name"; $"//json:marshal"]) (XStruct [mkF [$"WRRetry"] (XIdent $"int") (Some $"`json:""WR-Retry,omitempty""`")])]].
(** test/tests/fill/test_nostruct/10_nostruct.go *)
Definition g_nostruct : gofile := [
  mkDecl None [mkSpec $"TestMap10" (Some [$"// TestMap10 tests maps"; $"//json:strict"]) (XMap (XIdent $"string") (XIdent $"int64")); mkSpec $"TestMap11" (Some [$"// TestMap11 tests maps"; $"//json:strict"]) (XMap (XIdent $"string") (XSel $"test_extr" $"External")); mkSpec $"TestMap11Ref" (Some [$"// TestMap11Ref tests maps"; $"//json:strict"]) (XMap (XIdent $"string") (XStar (XSel $"test_extr" $"External"))); mkSpec $"TestSlice12" (Some [$"// TestSlice12 tests maps"; $"//json:strict"]) (XArray None (XIdent $"int64")); mkSpec $"TestSlice13" (Some [$"// TestSlice13 tests maps"; $"//json:strict"]) (XArray None (XSel $"test_extr" $"External")); mkSpec $"TestSlice14" (Some [$"// TestSlice14 tests maps"; $"//json:strict"]) (XArray (Some 2) (XSel $"time" $"Time"))]].
Definition g_nostruct_known : bytes -> bytes -> option texpr := by_name [($"test_extr", $"External", (XStruct [mkF [$"Test01"] (XSel $"test_any" $"TestAllOfSecond") (Some $"`json:""test1""`"); mkF [$"Test02"] (XSel $"test_string" $"TestStr01") (Some $"`json:""test2,omitempty""`")]))].
Definition g_nostruct_packages : bytes -> bytes -> option (list tdecl) := by_name [($"test_extr", $"External", visit [
  mkDecl None [mkSpec $"External" (Some [$"//json:optional"]) (XStruct [mkF [$"Test01"] (XSel $"test_any" $"TestAllOfSecond") (Some $"`json:""test1""`"); mkF [$"Test02"] (XSel $"test_string" $"TestStr01") (Some $"`json:""test2,omitempty""`")]); mkSpec $"ExternalStructSlice" (Some [$"//json:json"]) (XArray None (XSel $"test_string" $"TestStr01")); mkSpec $"ExternalStringSlice" (Some [$"//json:json"]) (XArray None (XSel $"test_string" $"FieldValueString"))]])].
(** test/tests/fill/test_num/02_numeric_fld.go *)
Definition g_num : gofile := [
  mkDecl (Some [$"// NumStruct01 tests optional struct generation"; $"//json:optional"]) [mkSpec $"NumStruct01" None (XStruct [mkF [$"IntFld"] (XIdent $"int") (Some $"`json:""int_fld""`"); mkF [$"IntFld8"] (XIdent $"int8") (Some $"`json:""int_fld8,omitempty""`"); mkF [$"IntFld16"] (XIdent $"int16") (Some $"`json:""int_fld16""`"); mkF [$"IntFld32"] (XIdent $"int32") (Some $"`json:""int_fld32""`"); mkF [$"IntFld64"] (XIdent $"int64") (Some $"`json:""int_fld64""`"); mkF [$"UintFld"] (XIdent $"uint") (Some $"`json:""Uint_fld""`"); mkF [$"UintFld8"] (XIdent $"uint8") (Some $"`json:""Uint_fld8,omitempty""`"); mkF [$"UintFld16"] (XIdent $"uint16") (Some $"`json:""Uint_fld16"" default:""333""`"); mkF [$"UintFld32"] (XIdent $"uint32") (Some $"`json:""Uint_fld32""`"); mkF [$"UintFld64"] (XIdent $"uint64") (Some $"`json:""Uint_fld64""`"); mkF [$"FloatFld32"] (XIdent $"float32") (Some $"`json:""fl23""`"); mkF [$"FloatFld64"] (XIdent $"float64") (Some $"`json:""fl64""`"); mkF [$"RefIntFld"] (XStar (XIdent $"int")) (Some $"`json:""ref_int_fld""`"); mkF [$"RefIntFld8"] (XStar (XIdent $"int8")) (Some $"`json:""ref_int_fld8,omitempty""`"); mkF [$"RefIntFld16"] (XStar (XIdent $"int16")) (Some $"`json:""ref_int_fld16""`"); mkF [$"RefIntFld32"] (XStar (XIdent $"int32")) (Some $"`json:""ref_int_fld32"" default:""456""`"); mkF [$"RefIntFld64"] (XStar (XIdent $"int64")) (Some $"`json:""ref_int_fld64""`"); mkF [$"RefUintFld"] (XStar (XIdent $"uint")) (Some $"`json:""ref_Uint_fld""`"); mkF [$"RefUintFld8"] (XStar (XIdent $"uint8")) (Some $"`json:""ref_Uint_fld8,omitempty""`"); mkF [$"RefUintFld16"] (XStar (XIdent $"uint16")) (Some $"`json:""ref_Uint_fld16""`"); mkF [$"RefUintFld32"] (XStar (XIdent $"uint32")) (Some $"`json:""ref_Uint_fld32""`"); mkF [$"RefUintFld64"] (XStar (XIdent $"uint64")) (Some $"`json:""ref_Uint_fld64""`"); mkF [$"RefFloatFld32"] (XStar (XIdent $"float32")) (Some $"`json:""ref_fl23""`"); mkF [$"RefFloatFld64"] (XStar (XIdent $"float64")) (Some $"`json:""ref_fl64""`")])];
  mkDecl (Some [$"// NumStruct02 tests strict struct generation"; $"//json:strict"]) [mkSpec $"NumStruct02" None (XStruct [mkF [$"IntFld"] (XIdent $"int") (Some $"`json:""int_fld""`"); mkF [$"IntFld8"] (XIdent $"int8") (Some $"`json:""int_fld8,omitempty""`"); mkF [$"IntFld16"] (XIdent $"int16") (Some $"`json:""int_fld16""`"); mkF [$"IntFld32"] (XIdent $"int32") (Some $"`json:""int_fld32"" default:""16""`"); mkF [$"IntFld64"] (XIdent $"int64") (Some $"`json:""int_fld64""`"); mkF [$"UintFld"] (XIdent $"uint") (Some $"`json:""Uint_fld""`"); mkF [$"UintFld8"] (XIdent $"uint8") (Some $"`json:""Uint_fld8,omitempty""`"); mkF [$"UintFld16"] (XIdent $"uint16") (Some $"`json:""Uint_fld16""`"); mkF [$"UintFld32"] (XIdent $"uint32") (Some $"`json:""Uint_fld32""`"); mkF [$"UintFld64"] (XIdent $"uint64") (Some $"`json:""Uint_fld64""`"); mkF [$"FloatFld32"] (XIdent $"float32") (Some $"`json:""fl23""`"); mkF [$"FloatFld64"] (XIdent $"float64") (Some $"`json:""fl64""`"); mkF [$"RefIntFld"] (XStar (XIdent $"int")) (Some $"`json:""ref_int_fld""`"); mkF [$"RefIntFld8"] (XStar (XIdent $"int8")) (Some $"`json:""ref_int_fld8,omitempty""`"); mkF [$"RefIntFld16"] (XStar (XIdent $"int16")) (Some $"`json:""ref_int_fld16""`"); mkF [$"RefIntFld32"] (XStar (XIdent $"int32")) (Some $"`json:""ref_int_fld32""`"); mkF [$"RefIntFld64"] (XStar (XIdent $"int64")) (Some $"`json:""ref_int_fld64""`"); mkF [$"RefUintFld"] (XStar (XIdent $"uint")) (Some $"`json:""ref_Uint_fld""`"); mkF [$"RefUintFld8"] (XStar (XIdent $"uint8")) (Some $"`json:""ref_Uint_fld8,omitempty""`"); mkF [$"RefUintFld16"] (XStar (XIdent $"uint16")) (Some $"`json:""ref_Uint_fld16""`"); mkF [$"RefUintFld32"] (XStar (XIdent $"uint32")) (Some $"`json:""ref_Uint_fld32""`"); mkF [$"RefUintFld64"] (XStar (XIdent $"uint64")) (Some $"`json:""ref_Uint_fld64""`"); mkF [$"RefFloatFld32"] (XStar (XIdent $"float32")) (Some $"`json:""ref_fl23"" default:""1.234""`"); mkF [$"RefFloatFld64"] (XStar (XIdent $"float64")) (Some $"`json:""ref_fl64""`")])]].
(** test/tests/fill/test_packages/14_test_packages.go *)
Definition g_packages : gofile := [
  mkDecl (Some [$"//json:optional"]) [mkSpec $"Test01" None (XStruct [mkF [$"Field"] (XSel $"pack_a" $"Test") (Some $"`json:""field""`")])]].
Definition g_packages_known : bytes -> bytes -> option texpr := by_name [($"pack_a", $"Test", (XIdent $"int64"))].
Definition g_packages_packages : bytes -> bytes -> option (list tdecl) := by_name [($"pack_a", $"Test", visit [
  mkDecl None [mkSpec $"Test" None (XIdent $"int64")]])].
(** test/tests/fill/test_slice/03_slice_fld.go *)
Definition g_slice : gofile := [
  mkDecl (Some [$"// TestSlice01 tests struct with array fields"; $"//"; $"//json:json"]) [mkSpec $"TestSlice01" None (XStruct [mkF [$"Field"] (XArray None (XIdent $"string")) (Some $"`json:""strs""`"); mkF [$"FieldRef"] (XArray None (XStar (XIdent $"int"))) (Some $"`json:""ints""`")])];
  mkDecl None [mkSpec $"TestSlice02" (Some [$"// TestSlice02 tests type inherited slice definition"; $"//json:json"]) (XArray None (XIdent $"TestSlice03")); mkSpec $"TestSlice03" (Some [$"// TestSlice03 supplies test for TestSlice02 (no tags!)"]) (XStruct [mkF [$"Data"] (XIdent $"int64") (Some $"`json:""data""`")]); mkSpec $"CampaignSites" (Some [$"//json:optional"]) (XStruct [mkF [$"Excluded"] (XArray None (XIdent $"FieldValueString")) (Some $"`json:""excluded,omitempty""`"); mkF [$"Included"] (XArray (Some 5) (XIdent $"FieldValueString")) (Some $"`json:""included,omitempty""`")]); mkSpec $"FieldValueString" None (XIdent $"string")];
  mkDecl (Some [$"// TestSliceSlice tests struct with slice of slice"; $"//"; $"//json:json"]) [mkSpec $"TestSliceSlice" None (XStruct [mkF [$"FieldStr"] (XArray None (XArray None (XIdent $"InnerString"))) (Some $"`json:""strs""`"); mkF [$"FieldInt"] (XArray None (XArray None (XIdent $"int"))) (Some $"`json:""ints""`")])];
  mkDecl None [mkSpec $"InnerString" None (XIdent $"string")];
  mkDecl (Some [$"//json:json"]) [mkSpec $"Bytes" None (XArray None (XIdent $"byte"))];
  mkDecl (Some [$"//json:json"]) [mkSpec $"ArrBytes" None (XArray (Some 8) (XIdent $"byte"))];
  mkDecl (Some [$"//json:json"]) [mkSpec $"BytesInStruct" None (XStruct [mkF [$"Line"] (XIdent $"string") (Some $"`json:""line""`"); mkF [$"IfBinary"] (XIdent $"Bytes") (Some $"`json:""if-binary,omitempty""`"); mkF [$"Binary"] (XIdent $"Bytes") (Some $"`json:""binary""`"); mkF [$"ArrBinary"] (XIdent $"ArrBytes") (Some $"`json:""arrbinary""`"); mkF [$"IfArrBinary"] (XIdent $"ArrBytes") (Some $"`json:""if-arrbinary,omitempty""`")])]].
(** test/tests/fill/test_string/01_string_fld.go *)
Definition g_string : gofile := [
  mkDecl (Some [$"//json:optional"]) [mkSpec $"TestStr01" None (XStruct [mkF [$"Field"] (XIdent $"string") (Some $"`json:""field""`"); mkF [$"FieldRef"] (XStar (XIdent $"string")) (Some $"`json:""fieldRef""`"); mkF [$"DefRef"] (XStar (XIdent $"string")) (Some $"`json:""defRef"" default:""default""`")])];
  mkDecl (Some [$"//json:strict"]) [mkSpec $"TestStr02" None (XStruct [mkF [$"Field"] (XIdent $"string") (Some $"`json:""field""`"); mkF [$"FieldRef"] (XStar (XIdent $"string")) (Some $"`json:""fieldRef""`"); mkF [$"String"] (XIdent $"FieldValueString") (Some $"`json:""string"" default:""value-foo-bar""`")])];
  mkDecl None [mkSpec $"FieldValueString" None (XIdent $"string")]].
(** test/tests/fill/test_time/04_time_fld.go *)
Definition g_time : gofile := [
  mkDecl (Some [$"// TestTime01 tests time.Time fields"; $"//"; $"//json:strict"]) [mkSpec $"TestTime01" None (XStruct [mkF [$"DateBegin"] (XSel $"time" $"Time") (Some $"`json:""date_begin""`"); mkF [$"DateCustom"] (XSel $"time" $"Time") (Some $"`json:""date_custom"" layout:""2006.01.02""`"); mkF [$"DateEnd"] (XStar (XSel $"time" $"Time")) (Some $"`json:""date_end,omitempty""`")])];
  mkDecl (Some [$"// TestTime2 test used-defined"; $"//"; $"//json:json"]) [mkSpec $"TestTime2" None (XSel $"time" $"Time")]].
(** test/tests/fill/test_trans/09_transitional.go *)
Definition g_trans : gofile := [
  mkDecl (Some [$"// TestTransitional test transitional json generation"; $"//"; $"//json:json"]) [mkSpec $"TestTransitional" None (XIdent $"TestTransitionalElem")];
  mkDecl (Some [$"// TestTransitionalElem test transitional json generation"; $"//"; $"//json:json"]) [mkSpec $"TestTransitionalElem" None (XStruct [mkF [$"TestField"] (XIdent $"int64") (Some $"`json:""test-field""`")])];
  mkDecl (Some [$"// TestExternalNested test transitional json generation"; $"//"; $"//json:json"]) [mkSpec $"TestExternalNested" None (XSel $"test_extr" $"ExternalNested")]].
Definition g_trans_known : bytes -> bytes -> option texpr := by_name [($"test_extr", $"ExternalNested", (XStruct [mkF [] (XSel $"test_any" $"TestAllOfSecond") None; mkF [] (XSel $"test_any" $"TestAllOfThird") None; mkF [] (XSel $"test_string" $"TestStr01") None]))].
Definition g_trans_packages : bytes -> bytes -> option (list tdecl) := by_name [($"test_extr", $"ExternalNested", visit [
  mkDecl None [mkSpec $"ExternalNested" (Some [$"//json:optional"]) (XStruct [mkF [] (XSel $"test_any" $"TestAllOfSecond") None; mkF [] (XSel $"test_any" $"TestAllOfThird") None; mkF [] (XSel $"test_string" $"TestStr01") None])]])].
(** test/tests/fill/test_userdefined/12_user_defined.go *)
Definition g_userdefined : gofile := [
  mkDecl (Some [$"// TestUserDefined tests inheritance"; $"//"; $"//json:optional"]) [mkSpec $"TestUserDefined" None (XStruct [mkF [$"Int32"] (XIdent $"DefinedInt32") (Some $"`json:""f_int32"" default:""32""`"); mkF [$"Int64"] (XIdent $"DefinedInt64") (Some $"`json:""f_int64,omitempty""`"); mkF [$"Float32"] (XIdent $"DefinedFloat32") (Some $"`json:""f_float32"" default:""123.01""`"); mkF [$"Float64"] (XIdent $"DefinedFloat64") (Some $"`json:""f_float64,omitempty""`"); mkF [$"String"] (XIdent $"DefinedString") (Some $"`json:""f_string"" default:""default_string""`"); mkF [$"Bool"] (XIdent $"DefinedBool") (Some $"`json:""f_bool,omitempty""`"); mkF [$"RefInt32"] (XStar (XIdent $"DefinedInt32")) (Some $"`json:""r_int32,omitempty""`"); mkF [$"RefInt64"] (XStar (XIdent $"DefinedInt64")) (Some $"`json:""r_int64,omitempty""`"); mkF [$"RefFloat32"] (XStar (XIdent $"DefinedFloat32")) (Some $"`json:""r_float32,omitempty""`"); mkF [$"RefFloat64"] (XStar (XIdent $"DefinedFloat64")) (Some $"`json:""r_float64,omitempty""`"); mkF [$"RefString"] (XStar (XIdent $"DefinedString")) (Some $"`json:""r_string,omitempty""`"); mkF [$"RefBool"] (XStar (XIdent $"DefinedBool")) (Some $"`json:""r_bool,omitempty""`")])];
  mkDecl (Some [$"//json:optional"]) [mkSpec $"TestUserDefinedRef" None (XStruct [mkF [$"Int32Ref"] (XIdent $"DefinedRefInt32") (Some $"`json:""d_int32"" default:""32""`"); mkF [$"Int64Ref"] (XIdent $"DefinedRefInt64") (Some $"`json:""d_int64,omitempty""`"); mkF [$"Float32Ref"] (XIdent $"DefinedRefFloat32") (Some $"`json:""d_float32"" default:""123.01""`"); mkF [$"Float64Ref"] (XIdent $"DefinedRefFloat64") (Some $"`json:""d_float64,omitempty""`"); mkF [$"StringRef"] (XIdent $"DefinedRefString") (Some $"`json:""d_string"" default:""default_string""`"); mkF [$"BoolRef"] (XIdent $"DefinedRefBool") (Some $"`json:""d_bool,omitempty""`"); mkF [$"RefInt32Ref"] (XStar (XIdent $"DefinedRefInt32")) (Some $"`json:""x_int32"" default:""32""`"); mkF [$"RefInt64Ref"] (XStar (XIdent $"DefinedRefInt64")) (Some $"`json:""x_int64,omitempty""`"); mkF [$"RefFloat32Ref"] (XStar (XIdent $"DefinedRefFloat32")) (Some $"`json:""x_float32"" default:""123.01""`"); mkF [$"RefFloat64Ref"] (XStar (XIdent $"DefinedRefFloat64")) (Some $"`json:""x_float64,omitempty""`"); mkF [$"RefStringRef"] (XStar (XIdent $"DefinedRefString")) (Some $"`json:""x_string"" default:""default_string""`"); mkF [$"RefBoolRef"] (XStar (XIdent $"DefinedRefBool")) (Some $"`json:""x_bool,omitempty""`")])];
  mkDecl None [mkSpec $"DefinedInt32" None (XIdent $"int32"); mkSpec $"DefinedInt64" None (XIdent $"int64"); mkSpec $"DefinedFloat32" None (XIdent $"float32"); mkSpec $"DefinedFloat64" None (XIdent $"float64"); mkSpec $"DefinedString" None (XIdent $"string"); mkSpec $"DefinedBool" None (XIdent $"bool"); mkSpec $"DefinedRefInt32" None (XStar (XIdent $"int32")); mkSpec $"DefinedRefInt64" None (XStar (XIdent $"int64")); mkSpec $"DefinedRefFloat32" None (XStar (XIdent $"float32")); mkSpec $"DefinedRefFloat64" None (XStar (XIdent $"float64")); mkSpec $"DefinedRefString" None (XStar (XIdent $"string")); mkSpec $"DefinedRefBool" None (XStar (XIdent $"bool"))];
  mkDecl None [mkSpec $"DefinedFieldAsUserDefined" (Some [$"//json:json"]) (XStruct [mkF [] (XSel $"userdefined" $"DefinedFieldAsUserDefined1") (Some $"`json:"",inline""`"); mkF [] (XSel $"userdefined" $"DefinedFieldAsUserDefined2") (Some $"`json:"",inline""`")])]].
Definition g_userdefined_known : bytes -> bytes -> option texpr := by_name [($"userdefined", $"DefinedFieldAsUserDefined1", (XStruct [mkF [$"Status"] (XIdent $"DefinedFieldAsUserDefinedStatus") (Some $"`json:""status""`")])); ($"userdefined", $"DefinedFieldAsUserDefined2", (XStruct [mkF [$"Time"] (XSel $"time" $"Time") (Some $"`json:""time""`")])); ($"userdefined", $"DefinedFieldAsUserDefinedStatus", (XIdent $"string"))].
Definition g_userdefined_packages : bytes -> bytes -> option (list tdecl) := by_name [($"userdefined", $"DefinedFieldAsUserDefined1", visit [
  mkDecl None [mkSpec $"DefinedFieldAsUserDefined1" (Some [$"// DefinedFieldAsUserDefined tests inherited user-defined nested field"; $"//"; $"//json:json"]) (XStruct [mkF [$"Status"] (XIdent $"DefinedFieldAsUserDefinedStatus") (Some $"`json:""status""`")]); mkSpec $"DefinedFieldAsUserDefinedStatus" None (XIdent $"string"); mkSpec $"DefinedFieldAsUserDefined2" (Some [$"//json:json"]) (XStruct [mkF [$"Time"] (XSel $"time" $"Time") (Some $"`json:""time""`")])]]); ($"userdefined", $"DefinedFieldAsUserDefined2", visit [
  mkDecl None [mkSpec $"DefinedFieldAsUserDefined1" (Some [$"// DefinedFieldAsUserDefined tests inherited user-defined nested field"; $"//"; $"//json:json"]) (XStruct [mkF [$"Status"] (XIdent $"DefinedFieldAsUserDefinedStatus") (Some $"`json:""status""`")]); mkSpec $"DefinedFieldAsUserDefinedStatus" None (XIdent $"string"); mkSpec $"DefinedFieldAsUserDefined2" (Some [$"//json:json"]) (XStruct [mkF [$"Time"] (XSel $"time" $"Time") (Some $"`json:""time""`")])]])].
(** test/tests/fill/test_uuid/08_uuid_fld.go *)
Definition g_uuid : gofile := [
  mkDecl (Some [$"// TestUUID tests uuid.UUID"; $"//json:json"]) [mkSpec $"TestUUID" None (XStruct [mkF [$"UUID"] (XSel $"uuid" $"UUID") (Some $"`json:""uuid""`")])];
  mkDecl (Some [$"// InheritUUID2 tests uuid.UUID inheritance"; $"//json:json"]) [mkSpec $"InheritUUID2" None (XIdent $"InheritUUID")];
  mkDecl (Some [$"// InheritUUID tests uuid.UUID inheritance"; $"//json:json"]) [mkSpec $"InheritUUID" None (XSel $"uuid" $"UUID")]].
