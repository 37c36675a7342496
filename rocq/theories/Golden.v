(** The templates against the generated files kept in /repo/test/tests/fill: for every type
    of every test package the bodies of FillFromJSON and validate, line by line (comments and
    indentation left out). These are tests of the transcription in Templ.v, not theorems. *)
From Coq Require Import List Ascii String ZArith NArith Bool.
From Verif Require Import Base Num Json Types Gen SamplesGen GoAst Templ PrintGo GoldenSrc.
Import ListNotations.
Local Open Scope string_scope.
Local Open Scope list_scope.

(** ** test/tests/fill/test_any/07_anyof_fld.go.out.go *)
Example g_any_TestAllOfSecond_FillFromJSON : fill_text simple_get no_packages no_known g_any $"TestAllOfSecond" = Some [
  "if err = s.validate(v); err != nil {";
  "return err";
  "}";
  "if _comment := v.Get(""comment""); _comment != nil {";
  "var valComment []byte";
  "if valComment, err = _comment.StringBytes(); err != nil {";
  "return newParsingError(""comment"", err)";
  "}";
  "s.Comment = string(valComment)";
  "}";
  "if _level := v.Get(""level""); _level != nil {";
  "var valLevel int64";
  "valLevel, err = _level.Int64()";
  "if err != nil {";
  "return newParsingError(""level"", err)";
  "}";
  "s.Level = valLevel";
  "}";
  "return nil"].
Proof. vm_compute. reflexivity. Qed.
Example g_any_TestAllOfSecond_validate : validate_text simple_get no_packages no_known g_any $"TestAllOfSecond" = Some [
  "o, err := v.Object()";
  "if err != nil {";
  "return err";
  "}";
  "var checkFields [2]int";
  "o.Visit(func(key []byte, _ *fastjson.Value) {";
  "if err != nil {";
  "return";
  "}";
  "if bytes.Equal(key, []byte{'c', 'o', 'm', 'm', 'e', 'n', 't'}) {";
  "checkFields[0]++";
  "if checkFields[0] > 1 {";
  "err = newParsingError(string(key), fmt.Errorf(""the '%s' field appears in the object twice"", string(key)))";
  "}";
  "return";
  "}";
  "if bytes.Equal(key, []byte{'l', 'e', 'v', 'e', 'l'}) {";
  "checkFields[1]++";
  "if checkFields[1] > 1 {";
  "err = newParsingError(string(key), fmt.Errorf(""the '%s' field appears in the object twice"", string(key)))";
  "}";
  "return";
  "}";
  "})";
  "return err"].
Proof. vm_compute. reflexivity. Qed.
Example g_any_TestAllOfThird_FillFromJSON : fill_text simple_get no_packages no_known g_any $"TestAllOfThird" = Some [
  "if err = s.validate(v); err != nil {";
  "return err";
  "}";
  "if _command := v.Get(""command""); _command != nil {";
  "var valCommand []byte";
  "if valCommand, err = _command.StringBytes(); err != nil {";
  "return newParsingError(""command"", err)";
  "}";
  "s.Command = string(valCommand)";
  "}";
  "if _range := v.Get(""range""); _range != nil {";
  "var valRange int64";
  "valRange, err = _range.Int64()";
  "if err != nil {";
  "return newParsingError(""range"", err)";
  "}";
  "s.Range = valRange";
  "}";
  "return nil"].
Proof. vm_compute. reflexivity. Qed.
Example g_any_TestAllOfThird_validate : validate_text simple_get no_packages no_known g_any $"TestAllOfThird" = Some [
  "o, err := v.Object()";
  "if err != nil {";
  "return err";
  "}";
  "var checkFields [2]int";
  "o.Visit(func(key []byte, _ *fastjson.Value) {";
  "if err != nil {";
  "return";
  "}";
  "if bytes.Equal(key, []byte{'c', 'o', 'm', 'm', 'a', 'n', 'd'}) {";
  "checkFields[0]++";
  "if checkFields[0] > 1 {";
  "err = newParsingError(string(key), fmt.Errorf(""the '%s' field appears in the object twice"", string(key)))";
  "}";
  "return";
  "}";
  "if bytes.Equal(key, []byte{'r', 'a', 'n', 'g', 'e'}) {";
  "checkFields[1]++";
  "if checkFields[1] > 1 {";
  "err = newParsingError(string(key), fmt.Errorf(""the '%s' field appears in the object twice"", string(key)))";
  "}";
  "return";
  "}";
  "})";
  "return err"].
Proof. vm_compute. reflexivity. Qed.
(** ** test/tests/fill/test_bool/11_bool_fld.go.out.go *)
Example g_bool_TestBool01_FillFromJSON : fill_text simple_get no_packages no_known g_bool $"TestBool01" = Some [
  "if err = s.validate(v); err != nil {";
  "return err";
  "}";
  "if _bool := v.Get(""bl""); _bool != nil {";
  "var valBool bool";
  "valBool, err = _bool.Bool()";
  "if err != nil {";
  "return newParsingError(""bl"", err)";
  "}";
  "s.Bool = valBool";
  "}";
  "if _blMaybe := v.Get(""mb""); _blMaybe != nil {";
  "var valBlMaybe bool";
  "valBlMaybe, err = _blMaybe.Bool()";
  "if err != nil {";
  "return newParsingError(""mb"", err)";
  "}";
  "s.BlMaybe = valBlMaybe";
  "}";
  "if _refBool := v.Get(""refBool""); valueIsNotNull(_refBool) {";
  "var valRefBool bool";
  "valRefBool, err = _refBool.Bool()";
  "if err != nil {";
  "return newParsingError(""refBool"", err)";
  "}";
  "s.RefBool = &valRefBool";
  "}";
  "if _refMaybe := v.Get(""refMaybe""); valueIsNotNull(_refMaybe) {";
  "var valRefMaybe bool";
  "valRefMaybe, err = _refMaybe.Bool()";
  "if err != nil {";
  "return newParsingError(""refMaybe"", err)";
  "}";
  "s.RefMaybe = &valRefMaybe";
  "}";
  "if _defBool := v.Get(""defBool""); _defBool != nil {";
  "var valDefBool bool";
  "valDefBool, err = _defBool.Bool()";
  "if err != nil {";
  "return newParsingError(""defBool"", err)";
  "}";
  "s.DefBool = valDefBool";
  "} else {";
  "s.DefBool = true";
  "}";
  "return nil"].
Proof. vm_compute. reflexivity. Qed.
Example g_bool_TestBool01_validate : validate_text simple_get no_packages no_known g_bool $"TestBool01" = Some [
  "o, err := v.Object()";
  "if err != nil {";
  "return err";
  "}";
  "var checkFields [5]int";
  "o.Visit(func(key []byte, _ *fastjson.Value) {";
  "if err != nil {";
  "return";
  "}";
  "if bytes.Equal(key, []byte{'b', 'l'}) {";
  "checkFields[0]++";
  "if checkFields[0] > 1 {";
  "err = newParsingError(string(key), fmt.Errorf(""the '%s' field appears in the object twice"", string(key)))";
  "}";
  "return";
  "}";
  "if bytes.Equal(key, []byte{'m', 'b'}) {";
  "checkFields[1]++";
  "if checkFields[1] > 1 {";
  "err = newParsingError(string(key), fmt.Errorf(""the '%s' field appears in the object twice"", string(key)))";
  "}";
  "return";
  "}";
  "if bytes.Equal(key, []byte{'r', 'e', 'f', 'B', 'o', 'o', 'l'}) {";
  "checkFields[2]++";
  "if checkFields[2] > 1 {";
  "err = newParsingError(string(key), fmt.Errorf(""the '%s' field appears in the object twice"", string(key)))";
  "}";
  "return";
  "}";
  "if bytes.Equal(key, []byte{'r', 'e', 'f', 'M', 'a', 'y', 'b', 'e'}) {";
  "checkFields[3]++";
  "if checkFields[3] > 1 {";
  "err = newParsingError(string(key), fmt.Errorf(""the '%s' field appears in the object twice"", string(key)))";
  "}";
  "return";
  "}";
  "if bytes.Equal(key, []byte{'d', 'e', 'f', 'B', 'o', 'o', 'l'}) {";
  "checkFields[4]++";
  "if checkFields[4] > 1 {";
  "err = newParsingError(string(key), fmt.Errorf(""the '%s' field appears in the object twice"", string(key)))";
  "}";
  "return";
  "}";
  "err = fmt.Errorf(""unexpected field '%s'"", string(key))";
  "})";
  "return err"].
Proof. vm_compute. reflexivity. Qed.
Example g_bool_TestBool02_FillFromJSON : fill_text simple_get no_packages no_known g_bool $"TestBool02" = Some [
  "if err = s.validate(v); err != nil {";
  "return err";
  "}";
  "if _i := v.Get(""i""); _i != nil {";
  "var valI bool";
  "valI, err = _i.Bool()";
  "if err != nil {";
  "return newParsingError(""i"", err)";
  "}";
  "s.I = TestInhBool(valI)";
  "}";
  "if _x := v.Get(""x""); _x != nil {";
  "var valX bool";
  "valX, err = _x.Bool()";
  "if err != nil {";
  "return newParsingError(""x"", err)";
  "}";
  "s.X = TestInhBool(valX)";
  "}";
  "return nil"].
Proof. vm_compute. reflexivity. Qed.
Example g_bool_TestBool02_validate : validate_text simple_get no_packages no_known g_bool $"TestBool02" = Some [
  "o, err := v.Object()";
  "if err != nil {";
  "return err";
  "}";
  "var checkFields [2]int";
  "o.Visit(func(key []byte, _ *fastjson.Value) {";
  "if err != nil {";
  "return";
  "}";
  "if bytes.Equal(key, []byte{'i'}) {";
  "checkFields[0]++";
  "if checkFields[0] > 1 {";
  "err = newParsingError(string(key), fmt.Errorf(""the '%s' field appears in the object twice"", string(key)))";
  "}";
  "return";
  "}";
  "if bytes.Equal(key, []byte{'x'}) {";
  "checkFields[1]++";
  "if checkFields[1] > 1 {";
  "err = newParsingError(string(key), fmt.Errorf(""the '%s' field appears in the object twice"", string(key)))";
  "}";
  "return";
  "}";
  "})";
  "return err"].
Proof. vm_compute. reflexivity. Qed.
Example g_bool_TestInhBool_FillFromJSON : fill_text simple_get no_packages no_known g_bool $"TestInhBool" = Some [
  "var _val bool";
  "_val, err = v.Bool()";
  "if err != nil {";
  "return err";
  "}";
  "*s = TestInhBool(_val)";
  "return nil"].
Proof. vm_compute. reflexivity. Qed.
Example g_bool_TestBool03_FillFromJSON : fill_text simple_get no_packages no_known g_bool $"TestBool03" = Some [
  "if err = s.validate(v); err != nil {";
  "return err";
  "}";
  "if _required := v.Get(""required""); _required != nil {";
  "var valRequired bool";
  "valRequired, err = _required.Bool()";
  "if err != nil {";
  "return newParsingError(""required"", err)";
  "}";
  "s.Required = valRequired";
  "}";
  "return nil"].
Proof. vm_compute. reflexivity. Qed.
Example g_bool_TestBool03_validate : validate_text simple_get no_packages no_known g_bool $"TestBool03" = Some [
  "o, err := v.Object()";
  "if err != nil {";
  "return err";
  "}";
  "var checkFields [1]int";
  "o.Visit(func(key []byte, _ *fastjson.Value) {";
  "if err != nil {";
  "return";
  "}";
  "if bytes.Equal(key, []byte{'r', 'e', 'q', 'u', 'i', 'r', 'e', 'd'}) {";
  "checkFields[0]++";
  "if checkFields[0] > 1 {";
  "err = newParsingError(string(key), fmt.Errorf(""the '%s' field appears in the object twice"", string(key)))";
  "}";
  "return";
  "}";
  "err = fmt.Errorf(""unexpected field '%s'"", string(key))";
  "})";
  "return err"].
Proof. vm_compute. reflexivity. Qed.
Example g_bool_TestBool04_FillFromJSON : fill_text simple_get no_packages no_known g_bool $"TestBool04" = Some [
  "if err = s.validate(v); err != nil {";
  "return err";
  "}";
  "if _required := v.Get(""required""); _required != nil {";
  "var valRequired bool";
  "valRequired, err = _required.Bool()";
  "if err != nil {";
  "return newParsingError(""required"", err)";
  "}";
  "s.Required = valRequired";
  "} else {";
  "return newParsingError(""required"", fmt.Errorf(""required element '%s' is missing"", ""required""))";
  "}";
  "return nil"].
Proof. vm_compute. reflexivity. Qed.
Example g_bool_TestBool04_validate : validate_text simple_get no_packages no_known g_bool $"TestBool04" = Some [
  "o, err := v.Object()";
  "if err != nil {";
  "return err";
  "}";
  "var checkFields [1]int";
  "o.Visit(func(key []byte, _ *fastjson.Value) {";
  "if err != nil {";
  "return";
  "}";
  "if bytes.Equal(key, []byte{'r', 'e', 'q', 'u', 'i', 'r', 'e', 'd'}) {";
  "checkFields[0]++";
  "if checkFields[0] > 1 {";
  "err = newParsingError(string(key), fmt.Errorf(""the '%s' field appears in the object twice"", string(key)))";
  "}";
  "return";
  "}";
  "err = fmt.Errorf(""unexpected field '%s'"", string(key))";
  "})";
  "return err"].
Proof. vm_compute. reflexivity. Qed.
Example g_bool_TestBool05_FillFromJSON : fill_text simple_get no_packages no_known g_bool $"TestBool05" = Some [
  "if err = s.validate(v); err != nil {";
  "return err";
  "}";
  "if _required := v.Get(""required""); _required != nil {";
  "var valRequired bool";
  "valRequired, err = _required.Bool()";
  "if err != nil {";
  "return newParsingError(""required"", err)";
  "}";
  "s.Required = valRequired";
  "}";
  "return nil"].
Proof. vm_compute. reflexivity. Qed.
Example g_bool_TestBool05_validate : validate_text simple_get no_packages no_known g_bool $"TestBool05" = Some [
  "o, err := v.Object()";
  "if err != nil {";
  "return err";
  "}";
  "var checkFields [1]int";
  "o.Visit(func(key []byte, _ *fastjson.Value) {";
  "if err != nil {";
  "return";
  "}";
  "if bytes.Equal(key, []byte{'r', 'e', 'q', 'u', 'i', 'r', 'e', 'd'}) {";
  "checkFields[0]++";
  "if checkFields[0] > 1 {";
  "err = newParsingError(string(key), fmt.Errorf(""the '%s' field appears in the object twice"", string(key)))";
  "}";
  "return";
  "}";
  "err = fmt.Errorf(""unexpected field '%s'"", string(key))";
  "})";
  "return err"].
Proof. vm_compute. reflexivity. Qed.
(** ** test/tests/fill/test_extr/extr.go.out.go *)
Example g_extr_External_FillFromJSON : fill_text simple_get g_extr_packages g_extr_known g_extr $"External" = Some [
  "if err = s.validate(v); err != nil {";
  "return err";
  "}";
  "if _test01 := v.Get(""test1""); _test01 != nil {";
  "var valTest01 = &s.Test01";
  "err = valTest01.FillFromJSON(_test01)";
  "if err != nil {";
  "return newParsingError(""test1"", err)";
  "}";
  "}";
  "if _test02 := v.Get(""test2""); _test02 != nil {";
  "var valTest02 = &s.Test02";
  "err = valTest02.FillFromJSON(_test02)";
  "if err != nil {";
  "return newParsingError(""test2"", err)";
  "}";
  "}";
  "return nil"].
Proof. vm_compute. reflexivity. Qed.
Example g_extr_External_validate : validate_text simple_get g_extr_packages g_extr_known g_extr $"External" = Some [
  "o, err := v.Object()";
  "if err != nil {";
  "return err";
  "}";
  "var checkFields [2]int";
  "o.Visit(func(key []byte, _ *fastjson.Value) {";
  "if err != nil {";
  "return";
  "}";
  "if bytes.Equal(key, []byte{'t', 'e', 's', 't', '1'}) {";
  "checkFields[0]++";
  "if checkFields[0] > 1 {";
  "err = newParsingError(string(key), fmt.Errorf(""the '%s' field appears in the object twice"", string(key)))";
  "}";
  "return";
  "}";
  "if bytes.Equal(key, []byte{'t', 'e', 's', 't', '2'}) {";
  "checkFields[1]++";
  "if checkFields[1] > 1 {";
  "err = newParsingError(string(key), fmt.Errorf(""the '%s' field appears in the object twice"", string(key)))";
  "}";
  "return";
  "}";
  "})";
  "return err"].
Proof. vm_compute. reflexivity. Qed.
Example g_extr_ExternalStructSlice_FillFromJSON : fill_text simple_get g_extr_packages g_extr_known g_extr $"ExternalStructSlice" = Some [
  "if v.Type() == fastjson.TypeNull {";
  "return nil";
  "}";
  "a, err := v.Array()";
  "if err != nil {";
  "return err";
  "}";
  "*s = make([]test_string.TestStr01, len(a))";
  "for i, v := range a {";
  "var value test_string.TestStr01";
  "err = value.FillFromJSON(v)";
  "if err != nil {";
  "return newParsingError(fmt.Sprintf(""%d"", i), err)";
  "}";
  "(*s)[i] = test_string.TestStr01(value)";
  "}";
  "return nil"].
Proof. vm_compute. reflexivity. Qed.
Example g_extr_ExternalStringSlice_FillFromJSON : fill_text simple_get g_extr_packages g_extr_known g_extr $"ExternalStringSlice" = Some [
  "if v.Type() == fastjson.TypeNull {";
  "return nil";
  "}";
  "a, err := v.Array()";
  "if err != nil {";
  "return err";
  "}";
  "*s = make([]test_string.FieldValueString, len(a))";
  "for i, v := range a {";
  "var value []byte";
  "value, err = v.StringBytes()";
  "if err != nil {";
  "return newParsingError(fmt.Sprintf(""%d"", i), err)";
  "}";
  "(*s)[i] = test_string.FieldValueString(value)";
  "}";
  "return nil"].
Proof. vm_compute. reflexivity. Qed.
(** ** test/tests/fill/test_extr/nested.go.out.go *)
Example g_extr2_ExternalNested_FillFromJSON : fill_text simple_get g_extr2_packages g_extr2_known g_extr2 $"ExternalNested" = Some [
  "if err = s.validate(v); err != nil {";
  "return err";
  "}";
  "if _testAllOfSecond := v; _testAllOfSecond != nil {";
  "var valTestAllOfSecond = &s.TestAllOfSecond";
  "err = valTestAllOfSecond.FillFromJSON(_testAllOfSecond)";
  "if err != nil {";
  "return newParsingError("""", err)";
  "}";
  "}";
  "if _testAllOfThird := v; _testAllOfThird != nil {";
  "var valTestAllOfThird = &s.TestAllOfThird";
  "err = valTestAllOfThird.FillFromJSON(_testAllOfThird)";
  "if err != nil {";
  "return newParsingError("""", err)";
  "}";
  "}";
  "if _testStr01 := v; _testStr01 != nil {";
  "var valTestStr01 = &s.TestStr01";
  "err = valTestStr01.FillFromJSON(_testStr01)";
  "if err != nil {";
  "return newParsingError("""", err)";
  "}";
  "}";
  "return nil"].
Proof. vm_compute. reflexivity. Qed.
Example g_extr2_ExternalNested_validate : validate_text simple_get g_extr2_packages g_extr2_known g_extr2 $"ExternalNested" = Some [
  "o, err := v.Object()";
  "if err != nil {";
  "return err";
  "}";
  "var checkFields [3]int";
  "o.Visit(func(key []byte, _ *fastjson.Value) {";
  "if err != nil {";
  "return";
  "}";
  "if bytes.Equal(key, []byte{}) {";
  "checkFields[0]++";
  "if checkFields[0] > 1 {";
  "err = newParsingError(string(key), fmt.Errorf(""the '%s' field appears in the object twice"", string(key)))";
  "}";
  "return";
  "}";
  "if bytes.Equal(key, []byte{}) {";
  "checkFields[1]++";
  "if checkFields[1] > 1 {";
  "err = newParsingError(string(key), fmt.Errorf(""the '%s' field appears in the object twice"", string(key)))";
  "}";
  "return";
  "}";
  "if bytes.Equal(key, []byte{}) {";
  "checkFields[2]++";
  "if checkFields[2] > 1 {";
  "err = newParsingError(string(key), fmt.Errorf(""the '%s' field appears in the object twice"", string(key)))";
  "}";
  "return";
  "}";
  "})";
  "return err"].
Proof. vm_compute. reflexivity. Qed.
(** ** test/tests/fill/test_inh/05_inheritance_fld.go.out.go *)
Example g_inh_TestInh01_FillFromJSON : fill_text simple_get no_packages no_known g_inh $"TestInh01" = Some [
  "if err = s.validate(v); err != nil {";
  "return err";
  "}";
  "if _breakFirst := v.Get(""breakFirst""); _breakFirst != nil {";
  "var valBreakFirst int";
  "valBreakFirst, err = _breakFirst.Int()";
  "if err != nil {";
  "return newParsingError(""breakFirst"", err)";
  "}";
  "s.BreakFirst = valBreakFirst";
  "}";
  "if _testInh02 := v.Get(""injected""); _testInh02 != nil {";
  "var valTestInh02 = &s.TestInh02";
  "err = valTestInh02.FillFromJSON(_testInh02)";
  "if err != nil {";
  "return newParsingError(""injected"", err)";
  "}";
  "}";
  "if _int16 := v.Get(""int_16""); _int16 != nil {";
  "var valInt16 int";
  "valInt16, err = _int16.Int()";
  "if err != nil {";
  "return newParsingError(""int_16"", err)";
  "}";
  "if valInt16 > math.MaxInt16 {";
  "return newParsingError(""int_16"", fmt.Errorf(""%d exceeds maximum for data type int16"", valInt16))";
  "}";
  "s.Int16 = int16(valInt16)";
  "}";
  "if _random := v.Get(""random""); _random != nil {";
  "var valRandom int";
  "valRandom, err = _random.Int()";
  "if err != nil {";
  "return newParsingError(""random"", err)";
  "}";
  "s.Random = valRandom";
  "}";
  "if _dateBegin := v.Get(""date_begin""); _dateBegin != nil {";
  "b, err := _dateBegin.StringBytes()";
  "if err != nil {";
  "return newParsingError(""date_begin"", err)";
  "}";
  "valDateBegin, err := parseDateTime(string(b))";
  "if err != nil {";
  "return newParsingError(""date_begin"", err)";
  "}";
  "s.DateBegin = valDateBegin";
  "}";
  "if _nested1 := v.Get(""nested1""); _nested1 != nil {";
  "var valNested1 = &s.Nested1";
  "err = valNested1.FillFromJSON(_nested1)";
  "if err != nil {";
  "return newParsingError(""nested1"", err)";
  "}";
  "}";
  "if _nested2 := v.Get(""nested2""); valueIsNotNull(_nested2) {";
  "var valNested2 TestInh03";
  "err = valNested2.FillFromJSON(_nested2)";
  "if err != nil {";
  "return newParsingError(""nested2"", err)";
  "}";
  "s.Nested2 = new(TestInh03)";
  "*s.Nested2 = TestInh03(valNested2)";
  "}";
  "return nil"].
Proof. vm_compute. reflexivity. Qed.
Example g_inh_TestInh01_validate : validate_text simple_get no_packages no_known g_inh $"TestInh01" = Some [
  "o, err := v.Object()";
  "if err != nil {";
  "return err";
  "}";
  "var checkFields [7]int";
  "o.Visit(func(key []byte, _ *fastjson.Value) {";
  "if err != nil {";
  "return";
  "}";
  "if bytes.Equal(key, []byte{'b', 'r', 'e', 'a', 'k', 'F', 'i', 'r', 's', 't'}) {";
  "checkFields[0]++";
  "if checkFields[0] > 1 {";
  "err = newParsingError(string(key), fmt.Errorf(""the '%s' field appears in the object twice"", string(key)))";
  "}";
  "return";
  "}";
  "if bytes.Equal(key, []byte{'i', 'n', 'j', 'e', 'c', 't', 'e', 'd'}) {";
  "checkFields[1]++";
  "if checkFields[1] > 1 {";
  "err = newParsingError(string(key), fmt.Errorf(""the '%s' field appears in the object twice"", string(key)))";
  "}";
  "return";
  "}";
  "if bytes.Equal(key, []byte{'i', 'n', 't', '_', '1', '6'}) {";
  "checkFields[2]++";
  "if checkFields[2] > 1 {";
  "err = newParsingError(string(key), fmt.Errorf(""the '%s' field appears in the object twice"", string(key)))";
  "}";
  "return";
  "}";
  "if bytes.Equal(key, []byte{'r', 'a', 'n', 'd', 'o', 'm'}) {";
  "checkFields[3]++";
  "if checkFields[3] > 1 {";
  "err = newParsingError(string(key), fmt.Errorf(""the '%s' field appears in the object twice"", string(key)))";
  "}";
  "return";
  "}";
  "if bytes.Equal(key, []byte{'d', 'a', 't', 'e', '_', 'b', 'e', 'g', 'i', 'n'}) {";
  "checkFields[4]++";
  "if checkFields[4] > 1 {";
  "err = newParsingError(string(key), fmt.Errorf(""the '%s' field appears in the object twice"", string(key)))";
  "}";
  "return";
  "}";
  "if bytes.Equal(key, []byte{'n', 'e', 's', 't', 'e', 'd', '1'}) {";
  "checkFields[5]++";
  "if checkFields[5] > 1 {";
  "err = newParsingError(string(key), fmt.Errorf(""the '%s' field appears in the object twice"", string(key)))";
  "}";
  "return";
  "}";
  "if bytes.Equal(key, []byte{'n', 'e', 's', 't', 'e', 'd', '2'}) {";
  "checkFields[6]++";
  "if checkFields[6] > 1 {";
  "err = newParsingError(string(key), fmt.Errorf(""the '%s' field appears in the object twice"", string(key)))";
  "}";
  "return";
  "}";
  "err = fmt.Errorf(""unexpected field '%s'"", string(key))";
  "})";
  "return err"].
Proof. vm_compute. reflexivity. Qed.
Example g_inh_TestInh02_FillFromJSON : fill_text simple_get no_packages no_known g_inh $"TestInh02" = Some [
  "if err = s.validate(v); err != nil {";
  "return err";
  "}";
  "if _int32 := v.Get(""int_32""); _int32 != nil {";
  "var valInt32 int";
  "valInt32, err = _int32.Int()";
  "if err != nil {";
  "return newParsingError(""int_32"", err)";
  "}";
  "if valInt32 > math.MaxInt32 {";
  "return newParsingError(""int_32"", fmt.Errorf(""%d exceeds maximum for data type int32"", valInt32))";
  "}";
  "s.Int32 = int32(valInt32)";
  "}";
  "return nil"].
Proof. vm_compute. reflexivity. Qed.
Example g_inh_TestInh02_validate : validate_text simple_get no_packages no_known g_inh $"TestInh02" = Some [
  "o, err := v.Object()";
  "if err != nil {";
  "return err";
  "}";
  "var checkFields [1]int";
  "o.Visit(func(key []byte, _ *fastjson.Value) {";
  "if err != nil {";
  "return";
  "}";
  "if bytes.Equal(key, []byte{'i', 'n', 't', '_', '3', '2'}) {";
  "checkFields[0]++";
  "if checkFields[0] > 1 {";
  "err = newParsingError(string(key), fmt.Errorf(""the '%s' field appears in the object twice"", string(key)))";
  "}";
  "return";
  "}";
  "err = fmt.Errorf(""unexpected field '%s'"", string(key))";
  "})";
  "return err"].
Proof. vm_compute. reflexivity. Qed.
Example g_inh_TestInh03_FillFromJSON : fill_text simple_get no_packages no_known g_inh $"TestInh03" = Some [
  "if err = s.validate(v); err != nil {";
  "return err";
  "}";
  "if _int16 := v.Get(""int_16""); _int16 != nil {";
  "var valInt16 int";
  "valInt16, err = _int16.Int()";
  "if err != nil {";
  "return newParsingError(""int_16"", err)";
  "}";
  "if valInt16 > math.MaxInt16 {";
  "return newParsingError(""int_16"", fmt.Errorf(""%d exceeds maximum for data type int16"", valInt16))";
  "}";
  "s.Int16 = int16(valInt16)";
  "}";
  "if _random := v.Get(""random""); _random != nil {";
  "var valRandom int";
  "valRandom, err = _random.Int()";
  "if err != nil {";
  "return newParsingError(""random"", err)";
  "}";
  "s.Random = valRandom";
  "}";
  "return nil"].
Proof. vm_compute. reflexivity. Qed.
Example g_inh_TestInh03_validate : validate_text simple_get no_packages no_known g_inh $"TestInh03" = Some [
  "o, err := v.Object()";
  "if err != nil {";
  "return err";
  "}";
  "var checkFields [2]int";
  "o.Visit(func(key []byte, _ *fastjson.Value) {";
  "if err != nil {";
  "return";
  "}";
  "if bytes.Equal(key, []byte{'i', 'n', 't', '_', '1', '6'}) {";
  "checkFields[0]++";
  "if checkFields[0] > 1 {";
  "err = newParsingError(string(key), fmt.Errorf(""the '%s' field appears in the object twice"", string(key)))";
  "}";
  "return";
  "}";
  "if bytes.Equal(key, []byte{'r', 'a', 'n', 'd', 'o', 'm'}) {";
  "checkFields[1]++";
  "if checkFields[1] > 1 {";
  "err = newParsingError(string(key), fmt.Errorf(""the '%s' field appears in the object twice"", string(key)))";
  "}";
  "return";
  "}";
  "err = fmt.Errorf(""unexpected field '%s'"", string(key))";
  "})";
  "return err"].
Proof. vm_compute. reflexivity. Qed.
Example g_inh_TestNested01_FillFromJSON : fill_text simple_get no_packages no_known g_inh $"TestNested01" = Some [
  "if err = s.validate(v); err != nil {";
  "return err";
  "}";
  "if _field32 := v.Get(""field_32""); _field32 != nil {";
  "var valField32 int";
  "valField32, err = _field32.Int()";
  "if err != nil {";
  "return newParsingError(""field_32"", err)";
  "}";
  "if valField32 > math.MaxInt32 {";
  "return newParsingError(""field_32"", fmt.Errorf(""%d exceeds maximum for data type int32"", valField32))";
  "}";
  "s.Field32 = int32(valField32)";
  "}";
  "return nil"].
Proof. vm_compute. reflexivity. Qed.
Example g_inh_TestNested01_validate : validate_text simple_get no_packages no_known g_inh $"TestNested01" = Some [
  "o, err := v.Object()";
  "if err != nil {";
  "return err";
  "}";
  "var checkFields [1]int";
  "o.Visit(func(key []byte, _ *fastjson.Value) {";
  "if err != nil {";
  "return";
  "}";
  "if bytes.Equal(key, []byte{'f', 'i', 'e', 'l', 'd', '_', '3', '2'}) {";
  "checkFields[0]++";
  "if checkFields[0] > 1 {";
  "err = newParsingError(string(key), fmt.Errorf(""the '%s' field appears in the object twice"", string(key)))";
  "}";
  "return";
  "}";
  "err = fmt.Errorf(""unexpected field '%s'"", string(key))";
  "})";
  "return err"].
Proof. vm_compute. reflexivity. Qed.
Example g_inh_TestNested02_FillFromJSON : fill_text simple_get no_packages no_known g_inh $"TestNested02" = Some [
  "if err = s.validate(v); err != nil {";
  "return err";
  "}";
  "if _field32 := v.Get(""field_32""); _field32 != nil {";
  "var valField32 int";
  "valField32, err = _field32.Int()";
  "if err != nil {";
  "return newParsingError(""field_32"", err)";
  "}";
  "if valField32 > math.MaxInt32 {";
  "return newParsingError(""field_32"", fmt.Errorf(""%d exceeds maximum for data type int32"", valField32))";
  "}";
  "s.Field32 = int32(valField32)";
  "}";
  "return nil"].
Proof. vm_compute. reflexivity. Qed.
Example g_inh_TestNested02_validate : validate_text simple_get no_packages no_known g_inh $"TestNested02" = Some [
  "o, err := v.Object()";
  "if err != nil {";
  "return err";
  "}";
  "var checkFields [1]int";
  "o.Visit(func(key []byte, _ *fastjson.Value) {";
  "if err != nil {";
  "return";
  "}";
  "if bytes.Equal(key, []byte{'f', 'i', 'e', 'l', 'd', '_', '3', '2'}) {";
  "checkFields[0]++";
  "if checkFields[0] > 1 {";
  "err = newParsingError(string(key), fmt.Errorf(""the '%s' field appears in the object twice"", string(key)))";
  "}";
  "return";
  "}";
  "err = fmt.Errorf(""unexpected field '%s'"", string(key))";
  "})";
  "return err"].
Proof. vm_compute. reflexivity. Qed.
Example g_inh_TestNested03_FillFromJSON : fill_text simple_get no_packages no_known g_inh $"TestNested03" = Some [
  "if err = s.validate(v); err != nil {";
  "return err";
  "}";
  "if _field32 := v.Get(""field_32""); _field32 != nil {";
  "var valField32 int";
  "valField32, err = _field32.Int()";
  "if err != nil {";
  "return newParsingError(""field_32"", err)";
  "}";
  "if valField32 > math.MaxInt32 {";
  "return newParsingError(""field_32"", fmt.Errorf(""%d exceeds maximum for data type int32"", valField32))";
  "}";
  "s.Field32 = int32(valField32)";
  "}";
  "return nil"].
Proof. vm_compute. reflexivity. Qed.
Example g_inh_TestNested03_validate : validate_text simple_get no_packages no_known g_inh $"TestNested03" = Some [
  "o, err := v.Object()";
  "if err != nil {";
  "return err";
  "}";
  "var checkFields [1]int";
  "o.Visit(func(key []byte, _ *fastjson.Value) {";
  "if err != nil {";
  "return";
  "}";
  "if bytes.Equal(key, []byte{'f', 'i', 'e', 'l', 'd', '_', '3', '2'}) {";
  "checkFields[0]++";
  "if checkFields[0] > 1 {";
  "err = newParsingError(string(key), fmt.Errorf(""the '%s' field appears in the object twice"", string(key)))";
  "}";
  "return";
  "}";
  "err = fmt.Errorf(""unexpected field '%s'"", string(key))";
  "})";
  "return err"].
Proof. vm_compute. reflexivity. Qed.
Example g_inh_TestNested04_FillFromJSON : fill_text simple_get no_packages no_known g_inh $"TestNested04" = Some [
  "var _val TestNested03";
  "err = _val.FillFromJSON(v)";
  "if err != nil {";
  "return err";
  "}";
  "*s = TestNested04(_val)";
  "return nil"].
Proof. vm_compute. reflexivity. Qed.
(** ** test/tests/fill/test_map/06_map_fld.go.out.go *)
Example g_map_TestMap01_FillFromJSON : fill_text simple_get no_packages no_known g_map $"TestMap01" = Some [
  "if err = s.validate(v); err != nil {";
  "return err";
  "}";
  "if _tags := v.Get(""tags""); valueIsNotNull(_tags) {";
  "o, err := _tags.Object()";
  "if err != nil {";
  "return newParsingError(""tags"", err)";
  "}";
  "valTags := s.Tags";
  "if valTags == nil {";
  "valTags = make(map[string]string, o.Len())";
  "}";
  "o.Visit(func(key []byte, v *fastjson.Value) {";
  "if err != nil {";
  "return";
  "}";
  "var value []byte";
  "value, err = v.StringBytes()";
  "if err != nil {";
  "err = newParsingError(string(key), err)";
  "} else {";
  "valTags[string(key)] = string(value)";
  "}";
  "})";
  "if err != nil {";
  "return newParsingError(""tags"", err)";
  "}";
  "s.Tags = valTags";
  "}";
  "if _properties := v.Get(""properties""); valueIsNotNull(_properties) {";
  "o, err := _properties.Object()";
  "if err != nil {";
  "return newParsingError(""properties"", err)";
  "}";
  "valProperties := s.Properties";
  "if valProperties == nil {";
  "valProperties = make(map[string]Property, o.Len())";
  "}";
  "o.Visit(func(key []byte, v *fastjson.Value) {";
  "if err != nil {";
  "return";
  "}";
  "var value Property";
  "err = value.FillFromJSON(v)";
  "if err != nil {";
  "err = newParsingError(string(key), err)";
  "} else {";
  "valProperties[string(key)] = Property(value)";
  "}";
  "})";
  "if err != nil {";
  "return newParsingError(""properties"", err)";
  "}";
  "s.Properties = valProperties";
  "}";
  "if _keyTypedProperties := v.Get(""key_typed_properties""); valueIsNotNull(_keyTypedProperties) {";
  "o, err := _keyTypedProperties.Object()";
  "if err != nil {";
  "return newParsingError(""key_typed_properties"", err)";
  "}";
  "valKeyTypedProperties := s.KeyTypedProperties";
  "if valKeyTypedProperties == nil {";
  "valKeyTypedProperties = make(map[Key]Property, o.Len())";
  "}";
  "o.Visit(func(key []byte, v *fastjson.Value) {";
  "if err != nil {";
  "return";
  "}";
  "var value Property";
  "err = value.FillFromJSON(v)";
  "if err != nil {";
  "err = newParsingError(string(key), err)";
  "} else {";
  "valKeyTypedProperties[Key(key)] = Property(value)";
  "}";
  "})";
  "if err != nil {";
  "return newParsingError(""key_typed_properties"", err)";
  "}";
  "s.KeyTypedProperties = valKeyTypedProperties";
  "}";
  "if _integerVal := v.Get(""integerVal""); valueIsNotNull(_integerVal) {";
  "o, err := _integerVal.Object()";
  "if err != nil {";
  "return newParsingError(""integerVal"", err)";
  "}";
  "valIntegerVal := s.IntegerVal";
  "if valIntegerVal == nil {";
  "valIntegerVal = make(map[Key]int32, o.Len())";
  "}";
  "o.Visit(func(key []byte, v *fastjson.Value) {";
  "if err != nil {";
  "return";
  "}";
  "var value int";
  "value, err = v.Int()";
  "if err != nil {";
  "err = newParsingError(string(key), err)";
  "} else {";
  "valIntegerVal[Key(key)] = int32(value)";
  "}";
  "})";
  "if err != nil {";
  "return newParsingError(""integerVal"", err)";
  "}";
  "s.IntegerVal = valIntegerVal";
  "}";
  "if _floatVal := v.Get(""floatVal""); valueIsNotNull(_floatVal) {";
  "o, err := _floatVal.Object()";
  "if err != nil {";
  "return newParsingError(""floatVal"", err)";
  "}";
  "valFloatVal := s.FloatVal";
  "if valFloatVal == nil {";
  "valFloatVal = make(map[Key]float64, o.Len())";
  "}";
  "o.Visit(func(key []byte, v *fastjson.Value) {";
  "if err != nil {";
  "return";
  "}";
  "var value float64";
  "value, err = v.Float64()";
  "if err != nil {";
  "err = newParsingError(string(key), err)";
  "} else {";
  "valFloatVal[Key(key)] = float64(value)";
  "}";
  "})";
  "if err != nil {";
  "return newParsingError(""floatVal"", err)";
  "}";
  "s.FloatVal = valFloatVal";
  "}";
  "if _uintVal := v.Get(""uintVal""); valueIsNotNull(_uintVal) {";
  "o, err := _uintVal.Object()";
  "if err != nil {";
  "return newParsingError(""uintVal"", err)";
  "}";
  "valUintVal := s.UintVal";
  "if valUintVal == nil {";
  "valUintVal = make(map[Key]*uint16, o.Len())";
  "}";
  "o.Visit(func(key []byte, v *fastjson.Value) {";
  "if err != nil {";
  "return";
  "}";
  "if v.Type() == fastjson.TypeNull {";
  "valUintVal[Key(key)] = nil";
  "return";
  "}";
  "var value uint";
  "value, err = v.Uint()";
  "if err != nil {";
  "err = newParsingError(string(key), err)";
  "} else {";
  "var valRef = uint16(value)";
  "valUintVal[Key(key)] = &valRef";
  "}";
  "})";
  "if err != nil {";
  "return newParsingError(""uintVal"", err)";
  "}";
  "s.UintVal = valUintVal";
  "}";
  "if _boolVal := v.Get(""bool""); valueIsNotNull(_boolVal) {";
  "o, err := _boolVal.Object()";
  "if err != nil {";
  "return newParsingError(""bool"", err)";
  "}";
  "valBoolVal := s.BoolVal";
  "if valBoolVal == nil {";
  "valBoolVal = make(map[Key]bool, o.Len())";
  "}";
  "o.Visit(func(key []byte, v *fastjson.Value) {";
  "if err != nil {";
  "return";
  "}";
  "var value bool";
  "value, err = v.Bool()";
  "if err != nil {";
  "err = newParsingError(string(key), err)";
  "} else {";
  "valBoolVal[Key(key)] = bool(value)";
  "}";
  "})";
  "if err != nil {";
  "return newParsingError(""bool"", err)";
  "}";
  "s.BoolVal = valBoolVal";
  "}";
  "if _typedVal := v.Get(""typed-val""); valueIsNotNull(_typedVal) {";
  "o, err := _typedVal.Object()";
  "if err != nil {";
  "return newParsingError(""typed-val"", err)";
  "}";
  "valTypedVal := s.TypedVal";
  "if valTypedVal == nil {";
  "valTypedVal = make(map[Key]Val, o.Len())";
  "}";
  "o.Visit(func(key []byte, v *fastjson.Value) {";
  "if err != nil {";
  "return";
  "}";
  "var value uint64";
  "value, err = v.Uint64()";
  "if err != nil {";
  "err = newParsingError(string(key), err)";
  "} else {";
  "valTypedVal[Key(key)] = Val(value)";
  "}";
  "})";
  "if err != nil {";
  "return newParsingError(""typed-val"", err)";
  "}";
  "s.TypedVal = valTypedVal";
  "}";
  "return nil"].
Proof. vm_compute. reflexivity. Qed.
Example g_map_TestMap01_validate : validate_text simple_get no_packages no_known g_map $"TestMap01" = Some [
  "o, err := v.Object()";
  "if err != nil {";
  "return err";
  "}";
  "var checkFields [8]int";
  "o.Visit(func(key []byte, _ *fastjson.Value) {";
  "if err != nil {";
  "return";
  "}";
  "if bytes.Equal(key, []byte{'t', 'a', 'g', 's'}) {";
  "checkFields[0]++";
  "if checkFields[0] > 1 {";
  "err = newParsingError(string(key), fmt.Errorf(""the '%s' field appears in the object twice"", string(key)))";
  "}";
  "return";
  "}";
  "if bytes.Equal(key, []byte{'p', 'r', 'o', 'p', 'e', 'r', 't', 'i', 'e', 's'}) {";
  "checkFields[1]++";
  "if checkFields[1] > 1 {";
  "err = newParsingError(string(key), fmt.Errorf(""the '%s' field appears in the object twice"", string(key)))";
  "}";
  "return";
  "}";
  "if bytes.Equal(key, []byte{'k', 'e', 'y', '_', 't', 'y', 'p', 'e', 'd', '_', 'p', 'r', 'o', 'p', 'e', 'r', 't', 'i', 'e', 's'}) {";
  "checkFields[2]++";
  "if checkFields[2] > 1 {";
  "err = newParsingError(string(key), fmt.Errorf(""the '%s' field appears in the object twice"", string(key)))";
  "}";
  "return";
  "}";
  "if bytes.Equal(key, []byte{'i', 'n', 't', 'e', 'g', 'e', 'r', 'V', 'a', 'l'}) {";
  "checkFields[3]++";
  "if checkFields[3] > 1 {";
  "err = newParsingError(string(key), fmt.Errorf(""the '%s' field appears in the object twice"", string(key)))";
  "}";
  "return";
  "}";
  "if bytes.Equal(key, []byte{'f', 'l', 'o', 'a', 't', 'V', 'a', 'l'}) {";
  "checkFields[4]++";
  "if checkFields[4] > 1 {";
  "err = newParsingError(string(key), fmt.Errorf(""the '%s' field appears in the object twice"", string(key)))";
  "}";
  "return";
  "}";
  "if bytes.Equal(key, []byte{'u', 'i', 'n', 't', 'V', 'a', 'l'}) {";
  "checkFields[5]++";
  "if checkFields[5] > 1 {";
  "err = newParsingError(string(key), fmt.Errorf(""the '%s' field appears in the object twice"", string(key)))";
  "}";
  "return";
  "}";
  "if bytes.Equal(key, []byte{'b', 'o', 'o', 'l'}) {";
  "checkFields[6]++";
  "if checkFields[6] > 1 {";
  "err = newParsingError(string(key), fmt.Errorf(""the '%s' field appears in the object twice"", string(key)))";
  "}";
  "return";
  "}";
  "if bytes.Equal(key, []byte{'t', 'y', 'p', 'e', 'd', '-', 'v', 'a', 'l'}) {";
  "checkFields[7]++";
  "if checkFields[7] > 1 {";
  "err = newParsingError(string(key), fmt.Errorf(""the '%s' field appears in the object twice"", string(key)))";
  "}";
  "return";
  "}";
  "err = fmt.Errorf(""unexpected field '%s'"", string(key))";
  "})";
  "return err"].
Proof. vm_compute. reflexivity. Qed.
Example g_map_Property_FillFromJSON : fill_text simple_get no_packages no_known g_map $"Property" = Some [
  "if err = s.validate(v); err != nil {";
  "return err";
  "}";
  "if _name := v.Get(""name""); _name != nil {";
  "var valName []byte";
  "if valName, err = _name.StringBytes(); err != nil {";
  "return newParsingError(""name"", err)";
  "}";
  "s.Name = string(valName)";
  "}";
  "if _value := v.Get(""value""); _value != nil {";
  "var valValue []byte";
  "if valValue, err = _value.StringBytes(); err != nil {";
  "return newParsingError(""value"", err)";
  "}";
  "s.Value = string(valValue)";
  "}";
  "return nil"].
Proof. vm_compute. reflexivity. Qed.
Example g_map_Property_validate : validate_text simple_get no_packages no_known g_map $"Property" = Some [
  "o, err := v.Object()";
  "if err != nil {";
  "return err";
  "}";
  "var checkFields [2]int";
  "o.Visit(func(key []byte, _ *fastjson.Value) {";
  "if err != nil {";
  "return";
  "}";
  "if bytes.Equal(key, []byte{'n', 'a', 'm', 'e'}) {";
  "checkFields[0]++";
  "if checkFields[0] > 1 {";
  "err = newParsingError(string(key), fmt.Errorf(""the '%s' field appears in the object twice"", string(key)))";
  "}";
  "return";
  "}";
  "if bytes.Equal(key, []byte{'v', 'a', 'l', 'u', 'e'}) {";
  "checkFields[1]++";
  "if checkFields[1] > 1 {";
  "err = newParsingError(string(key), fmt.Errorf(""the '%s' field appears in the object twice"", string(key)))";
  "}";
  "return";
  "}";
  "err = fmt.Errorf(""unexpected field '%s'"", string(key))";
  "})";
  "return err"].
Proof. vm_compute. reflexivity. Qed.
Example g_map_CampaignSites_FillFromJSON : fill_text simple_get no_packages no_known g_map $"CampaignSites" = Some [
  "if err = s.validate(v); err != nil {";
  "return err";
  "}";
  "if _excluded := v.Get(""excluded""); valueIsNotNull(_excluded) {";
  "o, err := _excluded.Object()";
  "if err != nil {";
  "return newParsingError(""excluded"", err)";
  "}";
  "valExcluded := s.Excluded";
  "if valExcluded == nil {";
  "valExcluded = make(map[string]FieldValueString, o.Len())";
  "}";
  "o.Visit(func(key []byte, v *fastjson.Value) {";
  "if err != nil {";
  "return";
  "}";
  "var value []byte";
  "value, err = v.StringBytes()";
  "if err != nil {";
  "err = newParsingError(string(key), err)";
  "} else {";
  "valExcluded[string(key)] = FieldValueString(value)";
  "}";
  "})";
  "if err != nil {";
  "return newParsingError(""excluded"", err)";
  "}";
  "s.Excluded = valExcluded";
  "}";
  "if _included := v.Get(""included""); valueIsNotNull(_included) {";
  "o, err := _included.Object()";
  "if err != nil {";
  "return newParsingError(""included"", err)";
  "}";
  "valIncluded := s.Included";
  "if valIncluded == nil {";
  "valIncluded = make(map[FieldValueString]string, o.Len())";
  "}";
  "o.Visit(func(key []byte, v *fastjson.Value) {";
  "if err != nil {";
  "return";
  "}";
  "var value []byte";
  "value, err = v.StringBytes()";
  "if err != nil {";
  "err = newParsingError(string(key), err)";
  "} else {";
  "valIncluded[FieldValueString(key)] = string(value)";
  "}";
  "})";
  "if err != nil {";
  "return newParsingError(""included"", err)";
  "}";
  "s.Included = valIncluded";
  "}";
  "return nil"].
Proof. vm_compute. reflexivity. Qed.
Example g_map_CampaignSites_validate : validate_text simple_get no_packages no_known g_map $"CampaignSites" = Some [
  "o, err := v.Object()";
  "if err != nil {";
  "return err";
  "}";
  "var checkFields [2]int";
  "o.Visit(func(key []byte, _ *fastjson.Value) {";
  "if err != nil {";
  "return";
  "}";
  "if bytes.Equal(key, []byte{'e', 'x', 'c', 'l', 'u', 'd', 'e', 'd'}) {";
  "checkFields[0]++";
  "if checkFields[0] > 1 {";
  "err = newParsingError(string(key), fmt.Errorf(""the '%s' field appears in the object twice"", string(key)))";
  "}";
  "return";
  "}";
  "if bytes.Equal(key, []byte{'i', 'n', 'c', 'l', 'u', 'd', 'e', 'd'}) {";
  "checkFields[1]++";
  "if checkFields[1] > 1 {";
  "err = newParsingError(string(key), fmt.Errorf(""the '%s' field appears in the object twice"", string(key)))";
  "}";
  "return";
  "}";
  "})";
  "return err"].
Proof. vm_compute. reflexivity. Qed.
(** ** test/tests/fill/test_nested/13_nested.go.out.go *)
Example g_nested_Root_FillFromJSON : fill_text simple_get no_packages no_known g_nested $"Root" = Some [
  "if err = s.validate(v); err != nil {";
  "return err";
  "}";
  "if _meta := v.Get(""meta""); _meta != nil {";
  "var valMeta = &s.Meta";
  "err = valMeta.FillFromJSON(_meta)";
  "if err != nil {";
  "return newParsingError(""meta"", err)";
  "}";
  "}";
  "if _data := v.Get(""data""); _data != nil {";
  "var listA []*fastjson.Value";
  "listA, err = _data.Array()";
  "if err != nil {";
  "return newParsingError(""data"", err)";
  "}";
  "valData := s.Data";
  "if l := len(listA); cap(valData) < l || (l == 0 && s.Data == nil) {";
  "valData = make([]Middle, 0, len(listA))";
  "} else {";
  "valData = s.Data[:0]";
  "}";
  "for _key1, _val1 := range listA {";
  "valData = valData[:len(valData)+1]";
  "var _elem1 = &valData[len(valData)-1]";
  "err = _elem1.FillFromJSON(_val1)";
  "if err != nil {";
  "err = newParsingError(strconv.Itoa(_key1), err)";
  "break";
  "}";
  "}";
  "if err != nil {";
  "return newParsingError(""data"", err)";
  "}";
  "s.Data = Middles(valData)";
  "}";
  "return nil"].
Proof. vm_compute. reflexivity. Qed.
Example g_nested_Root_validate : validate_text simple_get no_packages no_known g_nested $"Root" = Some [
  "o, err := v.Object()";
  "if err != nil {";
  "return err";
  "}";
  "var checkFields [2]int";
  "o.Visit(func(key []byte, _ *fastjson.Value) {";
  "if err != nil {";
  "return";
  "}";
  "if bytes.Equal(key, []byte{'m', 'e', 't', 'a'}) {";
  "checkFields[0]++";
  "if checkFields[0] > 1 {";
  "err = newParsingError(string(key), fmt.Errorf(""the '%s' field appears in the object twice"", string(key)))";
  "}";
  "return";
  "}";
  "if bytes.Equal(key, []byte{'d', 'a', 't', 'a'}) {";
  "checkFields[1]++";
  "if checkFields[1] > 1 {";
  "err = newParsingError(string(key), fmt.Errorf(""the '%s' field appears in the object twice"", string(key)))";
  "}";
  "return";
  "}";
  "})";
  "return err"].
Proof. vm_compute. reflexivity. Qed.
Example g_nested_Middle_FillFromJSON : fill_text simple_get no_packages no_known g_nested $"Middle" = Some [
  "if err = s.validate(v); err != nil {";
  "return err";
  "}";
  "if _name := v.Get(""name""); _name != nil {";
  "var valName []byte";
  "if valName, err = _name.StringBytes(); err != nil {";
  "return newParsingError(""name"", err)";
  "}";
  "s.Name = UserName(valName)";
  "}";
  "if _surname := v.Get(""surname""); _surname != nil {";
  "var valSurname []byte";
  "if valSurname, err = _surname.StringBytes(); err != nil {";
  "return newParsingError(""surname"", err)";
  "}";
  "s.Surname = UserSurname(valSurname)";
  "}";
  "if _patname := v.Get(""patname""); valueIsNotNull(_patname) {";
  "var valPatname []byte";
  "if valPatname, err = _patname.StringBytes(); err != nil {";
  "return newParsingError(""patname"", err)";
  "}";
  "s.Patname = new(UserPatname)";
  "*s.Patname = UserPatname(valPatname)";
  "}";
  "if _dateOfBorn := v.Get(""dateOfBorn""); _dateOfBorn != nil {";
  "b, err := _dateOfBorn.StringBytes()";
  "if err != nil {";
  "return newParsingError(""dateOfBorn"", err)";
  "}";
  "valDateOfBorn, err := parseDateTime(string(b))";
  "if err != nil {";
  "return newParsingError(""dateOfBorn"", err)";
  "}";
  "s.DateOfBorn = valDateOfBorn";
  "}";
  "if _tags := v.Get(""tags""); _tags != nil {";
  "o, err := _tags.Object()";
  "if err != nil {";
  "return newParsingError(""tags"", err)";
  "}";
  "valTags := s.Tags";
  "if valTags == nil {";
  "valTags = make(map[TagName]TagValue, o.Len())";
  "}";
  "o.Visit(func(key []byte, v *fastjson.Value) {";
  "if err != nil {";
  "return";
  "}";
  "var value []byte";
  "value, err = v.StringBytes()";
  "if err != nil {";
  "err = newParsingError(string(key), err)";
  "} else {";
  "valTags[TagName(key)] = TagValue(value)";
  "}";
  "})";
  "if err != nil {";
  "return newParsingError(""tags"", err)";
  "}";
  "s.Tags = Tags(valTags)";
  "}";
  "return nil"].
Proof. vm_compute. reflexivity. Qed.
Example g_nested_Middle_validate : validate_text simple_get no_packages no_known g_nested $"Middle" = Some [
  "o, err := v.Object()";
  "if err != nil {";
  "return err";
  "}";
  "var checkFields [5]int";
  "o.Visit(func(key []byte, _ *fastjson.Value) {";
  "if err != nil {";
  "return";
  "}";
  "if bytes.Equal(key, []byte{'n', 'a', 'm', 'e'}) {";
  "checkFields[0]++";
  "if checkFields[0] > 1 {";
  "err = newParsingError(string(key), fmt.Errorf(""the '%s' field appears in the object twice"", string(key)))";
  "}";
  "return";
  "}";
  "if bytes.Equal(key, []byte{'s', 'u', 'r', 'n', 'a', 'm', 'e'}) {";
  "checkFields[1]++";
  "if checkFields[1] > 1 {";
  "err = newParsingError(string(key), fmt.Errorf(""the '%s' field appears in the object twice"", string(key)))";
  "}";
  "return";
  "}";
  "if bytes.Equal(key, []byte{'p', 'a', 't', 'n', 'a', 'm', 'e'}) {";
  "checkFields[2]++";
  "if checkFields[2] > 1 {";
  "err = newParsingError(string(key), fmt.Errorf(""the '%s' field appears in the object twice"", string(key)))";
  "}";
  "return";
  "}";
  "if bytes.Equal(key, []byte{'d', 'a', 't', 'e', 'O', 'f', 'B', 'o', 'r', 'n'}) {";
  "checkFields[3]++";
  "if checkFields[3] > 1 {";
  "err = newParsingError(string(key), fmt.Errorf(""the '%s' field appears in the object twice"", string(key)))";
  "}";
  "return";
  "}";
  "if bytes.Equal(key, []byte{'t', 'a', 'g', 's'}) {";
  "checkFields[4]++";
  "if checkFields[4] > 1 {";
  "err = newParsingError(string(key), fmt.Errorf(""the '%s' field appears in the object twice"", string(key)))";
  "}";
  "return";
  "}";
  "})";
  "return err"].
Proof. vm_compute. reflexivity. Qed.
Example g_nested_Middles_FillFromJSON : fill_text simple_get no_packages no_known g_nested $"Middles" = Some [
  "if v.Type() == fastjson.TypeNull {";
  "return nil";
  "}";
  "a, err := v.Array()";
  "if err != nil {";
  "return err";
  "}";
  "*s = make([]Middle, len(a))";
  "for i, v := range a {";
  "var value Middle";
  "err = value.FillFromJSON(v)";
  "if err != nil {";
  "return newParsingError(fmt.Sprintf(""%d"", i), err)";
  "}";
  "(*s)[i] = Middle(value)";
  "}";
  "return nil"].
Proof. vm_compute. reflexivity. Qed.
Example g_nested_Meta_FillFromJSON : fill_text simple_get no_packages no_known g_nested $"Meta" = Some [
  "if err = s.validate(v); err != nil {";
  "return err";
  "}";
  "if _count := v.Get(""count""); _count != nil {";
  "var valCount int";
  "valCount, err = _count.Int()";
  "if err != nil {";
  "return newParsingError(""count"", err)";
  "}";
  "s.Count = valCount";
  "}";
  "return nil"].
Proof. vm_compute. reflexivity. Qed.
Example g_nested_Meta_validate : validate_text simple_get no_packages no_known g_nested $"Meta" = Some [
  "o, err := v.Object()";
  "if err != nil {";
  "return err";
  "}";
  "var checkFields [1]int";
  "o.Visit(func(key []byte, _ *fastjson.Value) {";
  "if err != nil {";
  "return";
  "}";
  "if bytes.Equal(key, []byte{'c', 'o', 'u', 'n', 't'}) {";
  "checkFields[0]++";
  "if checkFields[0] > 1 {";
  "err = newParsingError(string(key), fmt.Errorf(""the '%s' field appears in the object twice"", string(key)))";
  "}";
  "return";
  "}";
  "})";
  "return err"].
Proof. vm_compute. reflexivity. Qed.
Example g_nested_Personal_FillFromJSON : fill_text simple_get no_packages no_known g_nested $"Personal" = Some [
  "if err = s.validate(v); err != nil {";
  "return err";
  "}";
  "if _name := v.Get(""name""); _name != nil {";
  "var valName []byte";
  "if valName, err = _name.StringBytes(); err != nil {";
  "return newParsingError(""name"", err)";
  "}";
  "s.Name = UserName(valName)";
  "}";
  "if _surname := v.Get(""surname""); _surname != nil {";
  "var valSurname []byte";
  "if valSurname, err = _surname.StringBytes(); err != nil {";
  "return newParsingError(""surname"", err)";
  "}";
  "s.Surname = UserSurname(valSurname)";
  "}";
  "if _patname := v.Get(""patname""); valueIsNotNull(_patname) {";
  "var valPatname []byte";
  "if valPatname, err = _patname.StringBytes(); err != nil {";
  "return newParsingError(""patname"", err)";
  "}";
  "s.Patname = new(UserPatname)";
  "*s.Patname = UserPatname(valPatname)";
  "}";
  "return nil"].
Proof. vm_compute. reflexivity. Qed.
Example g_nested_Personal_validate : validate_text simple_get no_packages no_known g_nested $"Personal" = Some [
  "o, err := v.Object()";
  "if err != nil {";
  "return err";
  "}";
  "var checkFields [3]int";
  "o.Visit(func(key []byte, _ *fastjson.Value) {";
  "if err != nil {";
  "return";
  "}";
  "if bytes.Equal(key, []byte{'n', 'a', 'm', 'e'}) {";
  "checkFields[0]++";
  "if checkFields[0] > 1 {";
  "err = newParsingError(string(key), fmt.Errorf(""the '%s' field appears in the object twice"", string(key)))";
  "}";
  "return";
  "}";
  "if bytes.Equal(key, []byte{'s', 'u', 'r', 'n', 'a', 'm', 'e'}) {";
  "checkFields[1]++";
  "if checkFields[1] > 1 {";
  "err = newParsingError(string(key), fmt.Errorf(""the '%s' field appears in the object twice"", string(key)))";
  "}";
  "return";
  "}";
  "if bytes.Equal(key, []byte{'p', 'a', 't', 'n', 'a', 'm', 'e'}) {";
  "checkFields[2]++";
  "if checkFields[2] > 1 {";
  "err = newParsingError(string(key), fmt.Errorf(""the '%s' field appears in the object twice"", string(key)))";
  "}";
  "return";
  "}";
  "})";
  "return err"].
Proof. vm_compute. reflexivity. Qed.
Example g_nested_Tags_FillFromJSON : fill_text simple_get no_packages no_known g_nested $"Tags" = Some [
  "if v.Type() == fastjson.TypeNull {";
  "return nil";
  "}";
  "o, err := v.Object()";
  "if err != nil {";
  "return err";
  "}";
  "*s = make(map[TagName]TagValue, o.Len())";
  "o.Visit(func(key []byte, v *fastjson.Value) {";
  "if err != nil {";
  "return";
  "}";
  "var value []byte";
  "value, err = v.StringBytes()";
  "if err != nil {";
  "err = newParsingError(string(key), err)";
  "return";
  "}";
  "(*s)[TagName(key)] = TagValue(value)";
  "})";
  "return err"].
Proof. vm_compute. reflexivity. Qed.
Example g_nested_CustomEvent_FillFromJSON : fill_text simple_get no_packages no_known g_nested $"CustomEvent" = Some [
  "if err = s.validate(v); err != nil {";
  "return err";
  "}";
  "if _wRRetry := v; _wRRetry != nil {";
  "var valWRRetry = &s.WRRetry";
  "err = valWRRetry.FillFromJSON(_wRRetry)";
  "if err != nil {";
  "return newParsingError("""", err)";
  "}";
  "}";
  "return nil"].
Proof. vm_compute. reflexivity. Qed.
Example g_nested_CustomEvent_validate : validate_text simple_get no_packages no_known g_nested $"CustomEvent" = Some [
  "o, err := v.Object()";
  "if err != nil {";
  "return err";
  "}";
  "var checkFields [1]int";
  "o.Visit(func(key []byte, _ *fastjson.Value) {";
  "if err != nil {";
  "return";
  "}";
  "if bytes.Equal(key, []byte{}) {";
  "checkFields[0]++";
  "if checkFields[0] > 1 {";
  "err = newParsingError(string(key), fmt.Errorf(""the '%s' field appears in the object twice"", string(key)))";
  "}";
  "return";
  "}";
  "})";
  "return err"].
Proof. vm_compute. reflexivity. Qed.
Example g_nested_WRRetry_FillFromJSON : fill_text simple_get no_packages no_known g_nested $"WRRetry" = Some [
  "if err = s.validate(v); err != nil {";
  "return err";
  "}";
  "if _wRRetry := v.Get(""WR-Retry""); _wRRetry != nil {";
  "var valWRRetry int";
  "valWRRetry, err = _wRRetry.Int()";
  "if err != nil {";
  "return newParsingError(""WR-Retry"", err)";
  "}";
  "s.WRRetry = valWRRetry";
  "}";
  "return nil"].
Proof. vm_compute. reflexivity. Qed.
Example g_nested_WRRetry_validate : validate_text simple_get no_packages no_known g_nested $"WRRetry" = Some [
  "o, err := v.Object()";
  "if err != nil {";
  "return err";
  "}";
  "var checkFields [1]int";
  "o.Visit(func(key []byte, _ *fastjson.Value) {";
  "if err != nil {";
  "return";
  "}";
  "if bytes.Equal(key, []byte{'W', 'R', '-', 'R', 'e', 't', 'r', 'y'}) {";
  "checkFields[0]++";
  "if checkFields[0] > 1 {";
  "err = newParsingError(string(key), fmt.Errorf(""the '%s' field appears in the object twice"", string(key)))";
  "}";
  "return";
  "}";
  "})";
  "return err"].
Proof. vm_compute. reflexivity. Qed.
(** ** test/tests/fill/test_nostruct/10_nostruct.go.out.go *)
Example g_nostruct_TestMap10_FillFromJSON : fill_text simple_get g_nostruct_packages g_nostruct_known g_nostruct $"TestMap10" = Some [
  "if v.Type() == fastjson.TypeNull {";
  "return nil";
  "}";
  "o, err := v.Object()";
  "if err != nil {";
  "return err";
  "}";
  "*s = make(map[string]int64, o.Len())";
  "o.Visit(func(key []byte, v *fastjson.Value) {";
  "if err != nil {";
  "return";
  "}";
  "var value int64";
  "value, err = v.Int64()";
  "if err != nil {";
  "err = newParsingError(string(key), err)";
  "return";
  "}";
  "(*s)[string(key)] = int64(value)";
  "})";
  "return err"].
Proof. vm_compute. reflexivity. Qed.
Example g_nostruct_TestMap11_FillFromJSON : fill_text simple_get g_nostruct_packages g_nostruct_known g_nostruct $"TestMap11" = Some [
  "if v.Type() == fastjson.TypeNull {";
  "return nil";
  "}";
  "o, err := v.Object()";
  "if err != nil {";
  "return err";
  "}";
  "*s = make(map[string]test_extr.External, o.Len())";
  "o.Visit(func(key []byte, v *fastjson.Value) {";
  "if err != nil {";
  "return";
  "}";
  "var value test_extr.External";
  "err = value.FillFromJSON(v)";
  "if err != nil {";
  "err = newParsingError(string(key), err)";
  "return";
  "}";
  "(*s)[string(key)] = test_extr.External(value)";
  "})";
  "return err"].
Proof. vm_compute. reflexivity. Qed.
Example g_nostruct_TestMap11Ref_FillFromJSON : fill_text simple_get g_nostruct_packages g_nostruct_known g_nostruct $"TestMap11Ref" = Some [
  "if v.Type() == fastjson.TypeNull {";
  "return nil";
  "}";
  "o, err := v.Object()";
  "if err != nil {";
  "return err";
  "}";
  "*s = make(map[string]*test_extr.External, o.Len())";
  "o.Visit(func(key []byte, v *fastjson.Value) {";
  "if err != nil {";
  "return";
  "}";
  "if v.Type() == fastjson.TypeNull {";
  "(*s)[string(key)] = nil";
  "return";
  "}";
  "var value test_extr.External";
  "err = value.FillFromJSON(v)";
  "if err != nil {";
  "err = newParsingError(string(key), err)";
  "return";
  "}";
  "(*s)[string(key)] = &value";
  "})";
  "return err"].
Proof. vm_compute. reflexivity. Qed.
Example g_nostruct_TestSlice12_FillFromJSON : fill_text simple_get g_nostruct_packages g_nostruct_known g_nostruct $"TestSlice12" = Some [
  "if v.Type() == fastjson.TypeNull {";
  "return nil";
  "}";
  "a, err := v.Array()";
  "if err != nil {";
  "return err";
  "}";
  "*s = make([]int64, len(a))";
  "for i, v := range a {";
  "var value int64";
  "value, err = v.Int64()";
  "if err != nil {";
  "return newParsingError(fmt.Sprintf(""%d"", i), err)";
  "}";
  "(*s)[i] = int64(value)";
  "}";
  "return nil"].
Proof. vm_compute. reflexivity. Qed.
Example g_nostruct_TestSlice13_FillFromJSON : fill_text simple_get g_nostruct_packages g_nostruct_known g_nostruct $"TestSlice13" = Some [
  "if v.Type() == fastjson.TypeNull {";
  "return nil";
  "}";
  "a, err := v.Array()";
  "if err != nil {";
  "return err";
  "}";
  "*s = make([]test_extr.External, len(a))";
  "for i, v := range a {";
  "var value test_extr.External";
  "err = value.FillFromJSON(v)";
  "if err != nil {";
  "return newParsingError(fmt.Sprintf(""%d"", i), err)";
  "}";
  "(*s)[i] = test_extr.External(value)";
  "}";
  "return nil"].
Proof. vm_compute. reflexivity. Qed.
Example g_nostruct_TestSlice14_FillFromJSON : fill_text simple_get g_nostruct_packages g_nostruct_known g_nostruct $"TestSlice14" = Some [
  "if v.Type() == fastjson.TypeNull {";
  "return nil";
  "}";
  "a, err := v.Array()";
  "if err != nil {";
  "return err";
  "}";
  "if len(*s) != len(a) {";
  "return fmt.Errorf(""expected %d elements, got %d"", len(*s), len(a))";
  "}";
  "for i, v := range a {";
  "b, err := v.StringBytes()";
  "if err != nil {";
  "return newParsingError("""", err)";
  "}";
  "value, err := parseDateTime(string(b))";
  "if err != nil {";
  "return newParsingError(fmt.Sprintf(""%d"", i), err)";
  "}";
  "(*s)[i] = time.Time(value)";
  "}";
  "return nil"].
Proof. vm_compute. reflexivity. Qed.
(** ** test/tests/fill/test_num/02_numeric_fld.go.out.go *)
Example g_num_NumStruct01_FillFromJSON : fill_text simple_get no_packages no_known g_num $"NumStruct01" = Some [
  "if err = s.validate(v); err != nil {";
  "return err";
  "}";
  "if _intFld := v.Get(""int_fld""); _intFld != nil {";
  "var valIntFld int";
  "valIntFld, err = _intFld.Int()";
  "if err != nil {";
  "return newParsingError(""int_fld"", err)";
  "}";
  "s.IntFld = valIntFld";
  "}";
  "if _intFld8 := v.Get(""int_fld8""); _intFld8 != nil {";
  "var valIntFld8 int";
  "valIntFld8, err = _intFld8.Int()";
  "if err != nil {";
  "return newParsingError(""int_fld8"", err)";
  "}";
  "if valIntFld8 > math.MaxInt8 {";
  "return newParsingError(""int_fld8"", fmt.Errorf(""%d exceeds maximum for data type int8"", valIntFld8))";
  "}";
  "s.IntFld8 = int8(valIntFld8)";
  "}";
  "if _intFld16 := v.Get(""int_fld16""); _intFld16 != nil {";
  "var valIntFld16 int";
  "valIntFld16, err = _intFld16.Int()";
  "if err != nil {";
  "return newParsingError(""int_fld16"", err)";
  "}";
  "if valIntFld16 > math.MaxInt16 {";
  "return newParsingError(""int_fld16"", fmt.Errorf(""%d exceeds maximum for data type int16"", valIntFld16))";
  "}";
  "s.IntFld16 = int16(valIntFld16)";
  "}";
  "if _intFld32 := v.Get(""int_fld32""); _intFld32 != nil {";
  "var valIntFld32 int";
  "valIntFld32, err = _intFld32.Int()";
  "if err != nil {";
  "return newParsingError(""int_fld32"", err)";
  "}";
  "if valIntFld32 > math.MaxInt32 {";
  "return newParsingError(""int_fld32"", fmt.Errorf(""%d exceeds maximum for data type int32"", valIntFld32))";
  "}";
  "s.IntFld32 = int32(valIntFld32)";
  "}";
  "if _intFld64 := v.Get(""int_fld64""); _intFld64 != nil {";
  "var valIntFld64 int64";
  "valIntFld64, err = _intFld64.Int64()";
  "if err != nil {";
  "return newParsingError(""int_fld64"", err)";
  "}";
  "s.IntFld64 = valIntFld64";
  "}";
  "if _uintFld := v.Get(""Uint_fld""); _uintFld != nil {";
  "var valUintFld uint";
  "valUintFld, err = _uintFld.Uint()";
  "if err != nil {";
  "return newParsingError(""Uint_fld"", err)";
  "}";
  "s.UintFld = valUintFld";
  "}";
  "if _uintFld8 := v.Get(""Uint_fld8""); _uintFld8 != nil {";
  "var valUintFld8 uint";
  "valUintFld8, err = _uintFld8.Uint()";
  "if err != nil {";
  "return newParsingError(""Uint_fld8"", err)";
  "}";
  "if valUintFld8 > math.MaxUint8 {";
  "return newParsingError(""Uint_fld8"", fmt.Errorf(""%d exceeds maximum for data type uint8"", valUintFld8))";
  "}";
  "s.UintFld8 = uint8(valUintFld8)";
  "}";
  "if _uintFld16 := v.Get(""Uint_fld16""); _uintFld16 != nil {";
  "var valUintFld16 uint";
  "valUintFld16, err = _uintFld16.Uint()";
  "if err != nil {";
  "return newParsingError(""Uint_fld16"", err)";
  "}";
  "if valUintFld16 > math.MaxUint16 {";
  "return newParsingError(""Uint_fld16"", fmt.Errorf(""%d exceeds maximum for data type uint16"", valUintFld16))";
  "}";
  "s.UintFld16 = uint16(valUintFld16)";
  "} else {";
  "s.UintFld16 = 333";
  "}";
  "if _uintFld32 := v.Get(""Uint_fld32""); _uintFld32 != nil {";
  "var valUintFld32 uint";
  "valUintFld32, err = _uintFld32.Uint()";
  "if err != nil {";
  "return newParsingError(""Uint_fld32"", err)";
  "}";
  "if valUintFld32 > math.MaxUint32 {";
  "return newParsingError(""Uint_fld32"", fmt.Errorf(""%d exceeds maximum for data type uint32"", valUintFld32))";
  "}";
  "s.UintFld32 = uint32(valUintFld32)";
  "}";
  "if _uintFld64 := v.Get(""Uint_fld64""); _uintFld64 != nil {";
  "var valUintFld64 uint64";
  "valUintFld64, err = _uintFld64.Uint64()";
  "if err != nil {";
  "return newParsingError(""Uint_fld64"", err)";
  "}";
  "s.UintFld64 = valUintFld64";
  "}";
  "if _floatFld32 := v.Get(""fl23""); _floatFld32 != nil {";
  "var valFloatFld32 float64";
  "valFloatFld32, err = _floatFld32.Float64()";
  "if err != nil {";
  "return newParsingError(""fl23"", err)";
  "}";
  "if valFloatFld32 > math.MaxFloat32 {";
  "return newParsingError(""fl23"", fmt.Errorf(""%f exceeds maximum for data type float32"", valFloatFld32))";
  "}";
  "s.FloatFld32 = float32(valFloatFld32)";
  "}";
  "if _floatFld64 := v.Get(""fl64""); _floatFld64 != nil {";
  "var valFloatFld64 float64";
  "valFloatFld64, err = _floatFld64.Float64()";
  "if err != nil {";
  "return newParsingError(""fl64"", err)";
  "}";
  "s.FloatFld64 = valFloatFld64";
  "}";
  "if _refIntFld := v.Get(""ref_int_fld""); valueIsNotNull(_refIntFld) {";
  "var valRefIntFld int";
  "valRefIntFld, err = _refIntFld.Int()";
  "if err != nil {";
  "return newParsingError(""ref_int_fld"", err)";
  "}";
  "s.RefIntFld = &valRefIntFld";
  "}";
  "if _refIntFld8 := v.Get(""ref_int_fld8""); valueIsNotNull(_refIntFld8) {";
  "var valRefIntFld8 int";
  "valRefIntFld8, err = _refIntFld8.Int()";
  "if err != nil {";
  "return newParsingError(""ref_int_fld8"", err)";
  "}";
  "if valRefIntFld8 > math.MaxInt8 {";
  "return newParsingError(""ref_int_fld8"", fmt.Errorf(""%d exceeds maximum for data type int8"", valRefIntFld8))";
  "}";
  "s.RefIntFld8 = new(int8)";
  "*s.RefIntFld8 = int8(valRefIntFld8)";
  "}";
  "if _refIntFld16 := v.Get(""ref_int_fld16""); valueIsNotNull(_refIntFld16) {";
  "var valRefIntFld16 int";
  "valRefIntFld16, err = _refIntFld16.Int()";
  "if err != nil {";
  "return newParsingError(""ref_int_fld16"", err)";
  "}";
  "if valRefIntFld16 > math.MaxInt16 {";
  "return newParsingError(""ref_int_fld16"", fmt.Errorf(""%d exceeds maximum for data type int16"", valRefIntFld16))";
  "}";
  "s.RefIntFld16 = new(int16)";
  "*s.RefIntFld16 = int16(valRefIntFld16)";
  "}";
  "if _refIntFld32 := v.Get(""ref_int_fld32""); valueIsNotNull(_refIntFld32) {";
  "var valRefIntFld32 int";
  "valRefIntFld32, err = _refIntFld32.Int()";
  "if err != nil {";
  "return newParsingError(""ref_int_fld32"", err)";
  "}";
  "if valRefIntFld32 > math.MaxInt32 {";
  "return newParsingError(""ref_int_fld32"", fmt.Errorf(""%d exceeds maximum for data type int32"", valRefIntFld32))";
  "}";
  "s.RefIntFld32 = new(int32)";
  "*s.RefIntFld32 = int32(valRefIntFld32)";
  "} else {";
  "if _refIntFld32 == nil {";
  "var __RefIntFld32 int32 = 456";
  "s.RefIntFld32 = &__RefIntFld32";
  "}";
  "}";
  "if _refIntFld64 := v.Get(""ref_int_fld64""); valueIsNotNull(_refIntFld64) {";
  "var valRefIntFld64 int64";
  "valRefIntFld64, err = _refIntFld64.Int64()";
  "if err != nil {";
  "return newParsingError(""ref_int_fld64"", err)";
  "}";
  "s.RefIntFld64 = &valRefIntFld64";
  "}";
  "if _refUintFld := v.Get(""ref_Uint_fld""); valueIsNotNull(_refUintFld) {";
  "var valRefUintFld uint";
  "valRefUintFld, err = _refUintFld.Uint()";
  "if err != nil {";
  "return newParsingError(""ref_Uint_fld"", err)";
  "}";
  "s.RefUintFld = new(uint)";
  "*s.RefUintFld = uint(valRefUintFld)";
  "}";
  "if _refUintFld8 := v.Get(""ref_Uint_fld8""); valueIsNotNull(_refUintFld8) {";
  "var valRefUintFld8 uint";
  "valRefUintFld8, err = _refUintFld8.Uint()";
  "if err != nil {";
  "return newParsingError(""ref_Uint_fld8"", err)";
  "}";
  "if valRefUintFld8 > math.MaxUint8 {";
  "return newParsingError(""ref_Uint_fld8"", fmt.Errorf(""%d exceeds maximum for data type uint8"", valRefUintFld8))";
  "}";
  "s.RefUintFld8 = new(uint8)";
  "*s.RefUintFld8 = uint8(valRefUintFld8)";
  "}";
  "if _refUintFld16 := v.Get(""ref_Uint_fld16""); valueIsNotNull(_refUintFld16) {";
  "var valRefUintFld16 uint";
  "valRefUintFld16, err = _refUintFld16.Uint()";
  "if err != nil {";
  "return newParsingError(""ref_Uint_fld16"", err)";
  "}";
  "if valRefUintFld16 > math.MaxUint16 {";
  "return newParsingError(""ref_Uint_fld16"", fmt.Errorf(""%d exceeds maximum for data type uint16"", valRefUintFld16))";
  "}";
  "s.RefUintFld16 = new(uint16)";
  "*s.RefUintFld16 = uint16(valRefUintFld16)";
  "}";
  "if _refUintFld32 := v.Get(""ref_Uint_fld32""); valueIsNotNull(_refUintFld32) {";
  "var valRefUintFld32 uint";
  "valRefUintFld32, err = _refUintFld32.Uint()";
  "if err != nil {";
  "return newParsingError(""ref_Uint_fld32"", err)";
  "}";
  "if valRefUintFld32 > math.MaxUint32 {";
  "return newParsingError(""ref_Uint_fld32"", fmt.Errorf(""%d exceeds maximum for data type uint32"", valRefUintFld32))";
  "}";
  "s.RefUintFld32 = new(uint32)";
  "*s.RefUintFld32 = uint32(valRefUintFld32)";
  "}";
  "if _refUintFld64 := v.Get(""ref_Uint_fld64""); valueIsNotNull(_refUintFld64) {";
  "var valRefUintFld64 uint64";
  "valRefUintFld64, err = _refUintFld64.Uint64()";
  "if err != nil {";
  "return newParsingError(""ref_Uint_fld64"", err)";
  "}";
  "s.RefUintFld64 = new(uint64)";
  "*s.RefUintFld64 = uint64(valRefUintFld64)";
  "}";
  "if _refFloatFld32 := v.Get(""ref_fl23""); valueIsNotNull(_refFloatFld32) {";
  "var valRefFloatFld32 float64";
  "valRefFloatFld32, err = _refFloatFld32.Float64()";
  "if err != nil {";
  "return newParsingError(""ref_fl23"", err)";
  "}";
  "if valRefFloatFld32 > math.MaxFloat32 {";
  "return newParsingError(""ref_fl23"", fmt.Errorf(""%f exceeds maximum for data type float32"", valRefFloatFld32))";
  "}";
  "s.RefFloatFld32 = new(float32)";
  "*s.RefFloatFld32 = float32(valRefFloatFld32)";
  "}";
  "if _refFloatFld64 := v.Get(""ref_fl64""); valueIsNotNull(_refFloatFld64) {";
  "var valRefFloatFld64 float64";
  "valRefFloatFld64, err = _refFloatFld64.Float64()";
  "if err != nil {";
  "return newParsingError(""ref_fl64"", err)";
  "}";
  "s.RefFloatFld64 = &valRefFloatFld64";
  "}";
  "return nil"].
Proof. vm_compute. reflexivity. Qed.
Example g_num_NumStruct01_validate : validate_text simple_get no_packages no_known g_num $"NumStruct01" = Some [
  "o, err := v.Object()";
  "if err != nil {";
  "return err";
  "}";
  "var checkFields [24]int";
  "o.Visit(func(key []byte, _ *fastjson.Value) {";
  "if err != nil {";
  "return";
  "}";
  "if bytes.Equal(key, []byte{'i', 'n', 't', '_', 'f', 'l', 'd'}) {";
  "checkFields[0]++";
  "if checkFields[0] > 1 {";
  "err = newParsingError(string(key), fmt.Errorf(""the '%s' field appears in the object twice"", string(key)))";
  "}";
  "return";
  "}";
  "if bytes.Equal(key, []byte{'i', 'n', 't', '_', 'f', 'l', 'd', '8'}) {";
  "checkFields[1]++";
  "if checkFields[1] > 1 {";
  "err = newParsingError(string(key), fmt.Errorf(""the '%s' field appears in the object twice"", string(key)))";
  "}";
  "return";
  "}";
  "if bytes.Equal(key, []byte{'i', 'n', 't', '_', 'f', 'l', 'd', '1', '6'}) {";
  "checkFields[2]++";
  "if checkFields[2] > 1 {";
  "err = newParsingError(string(key), fmt.Errorf(""the '%s' field appears in the object twice"", string(key)))";
  "}";
  "return";
  "}";
  "if bytes.Equal(key, []byte{'i', 'n', 't', '_', 'f', 'l', 'd', '3', '2'}) {";
  "checkFields[3]++";
  "if checkFields[3] > 1 {";
  "err = newParsingError(string(key), fmt.Errorf(""the '%s' field appears in the object twice"", string(key)))";
  "}";
  "return";
  "}";
  "if bytes.Equal(key, []byte{'i', 'n', 't', '_', 'f', 'l', 'd', '6', '4'}) {";
  "checkFields[4]++";
  "if checkFields[4] > 1 {";
  "err = newParsingError(string(key), fmt.Errorf(""the '%s' field appears in the object twice"", string(key)))";
  "}";
  "return";
  "}";
  "if bytes.Equal(key, []byte{'U', 'i', 'n', 't', '_', 'f', 'l', 'd'}) {";
  "checkFields[5]++";
  "if checkFields[5] > 1 {";
  "err = newParsingError(string(key), fmt.Errorf(""the '%s' field appears in the object twice"", string(key)))";
  "}";
  "return";
  "}";
  "if bytes.Equal(key, []byte{'U', 'i', 'n', 't', '_', 'f', 'l', 'd', '8'}) {";
  "checkFields[6]++";
  "if checkFields[6] > 1 {";
  "err = newParsingError(string(key), fmt.Errorf(""the '%s' field appears in the object twice"", string(key)))";
  "}";
  "return";
  "}";
  "if bytes.Equal(key, []byte{'U', 'i', 'n', 't', '_', 'f', 'l', 'd', '1', '6'}) {";
  "checkFields[7]++";
  "if checkFields[7] > 1 {";
  "err = newParsingError(string(key), fmt.Errorf(""the '%s' field appears in the object twice"", string(key)))";
  "}";
  "return";
  "}";
  "if bytes.Equal(key, []byte{'U', 'i', 'n', 't', '_', 'f', 'l', 'd', '3', '2'}) {";
  "checkFields[8]++";
  "if checkFields[8] > 1 {";
  "err = newParsingError(string(key), fmt.Errorf(""the '%s' field appears in the object twice"", string(key)))";
  "}";
  "return";
  "}";
  "if bytes.Equal(key, []byte{'U', 'i', 'n', 't', '_', 'f', 'l', 'd', '6', '4'}) {";
  "checkFields[9]++";
  "if checkFields[9] > 1 {";
  "err = newParsingError(string(key), fmt.Errorf(""the '%s' field appears in the object twice"", string(key)))";
  "}";
  "return";
  "}";
  "if bytes.Equal(key, []byte{'f', 'l', '2', '3'}) {";
  "checkFields[10]++";
  "if checkFields[10] > 1 {";
  "err = newParsingError(string(key), fmt.Errorf(""the '%s' field appears in the object twice"", string(key)))";
  "}";
  "return";
  "}";
  "if bytes.Equal(key, []byte{'f', 'l', '6', '4'}) {";
  "checkFields[11]++";
  "if checkFields[11] > 1 {";
  "err = newParsingError(string(key), fmt.Errorf(""the '%s' field appears in the object twice"", string(key)))";
  "}";
  "return";
  "}";
  "if bytes.Equal(key, []byte{'r', 'e', 'f', '_', 'i', 'n', 't', '_', 'f', 'l', 'd'}) {";
  "checkFields[12]++";
  "if checkFields[12] > 1 {";
  "err = newParsingError(string(key), fmt.Errorf(""the '%s' field appears in the object twice"", string(key)))";
  "}";
  "return";
  "}";
  "if bytes.Equal(key, []byte{'r', 'e', 'f', '_', 'i', 'n', 't', '_', 'f', 'l', 'd', '8'}) {";
  "checkFields[13]++";
  "if checkFields[13] > 1 {";
  "err = newParsingError(string(key), fmt.Errorf(""the '%s' field appears in the object twice"", string(key)))";
  "}";
  "return";
  "}";
  "if bytes.Equal(key, []byte{'r', 'e', 'f', '_', 'i', 'n', 't', '_', 'f', 'l', 'd', '1', '6'}) {";
  "checkFields[14]++";
  "if checkFields[14] > 1 {";
  "err = newParsingError(string(key), fmt.Errorf(""the '%s' field appears in the object twice"", string(key)))";
  "}";
  "return";
  "}";
  "if bytes.Equal(key, []byte{'r', 'e', 'f', '_', 'i', 'n', 't', '_', 'f', 'l', 'd', '3', '2'}) {";
  "checkFields[15]++";
  "if checkFields[15] > 1 {";
  "err = newParsingError(string(key), fmt.Errorf(""the '%s' field appears in the object twice"", string(key)))";
  "}";
  "return";
  "}";
  "if bytes.Equal(key, []byte{'r', 'e', 'f', '_', 'i', 'n', 't', '_', 'f', 'l', 'd', '6', '4'}) {";
  "checkFields[16]++";
  "if checkFields[16] > 1 {";
  "err = newParsingError(string(key), fmt.Errorf(""the '%s' field appears in the object twice"", string(key)))";
  "}";
  "return";
  "}";
  "if bytes.Equal(key, []byte{'r', 'e', 'f', '_', 'U', 'i', 'n', 't', '_', 'f', 'l', 'd'}) {";
  "checkFields[17]++";
  "if checkFields[17] > 1 {";
  "err = newParsingError(string(key), fmt.Errorf(""the '%s' field appears in the object twice"", string(key)))";
  "}";
  "return";
  "}";
  "if bytes.Equal(key, []byte{'r', 'e', 'f', '_', 'U', 'i', 'n', 't', '_', 'f', 'l', 'd', '8'}) {";
  "checkFields[18]++";
  "if checkFields[18] > 1 {";
  "err = newParsingError(string(key), fmt.Errorf(""the '%s' field appears in the object twice"", string(key)))";
  "}";
  "return";
  "}";
  "if bytes.Equal(key, []byte{'r', 'e', 'f', '_', 'U', 'i', 'n', 't', '_', 'f', 'l', 'd', '1', '6'}) {";
  "checkFields[19]++";
  "if checkFields[19] > 1 {";
  "err = newParsingError(string(key), fmt.Errorf(""the '%s' field appears in the object twice"", string(key)))";
  "}";
  "return";
  "}";
  "if bytes.Equal(key, []byte{'r', 'e', 'f', '_', 'U', 'i', 'n', 't', '_', 'f', 'l', 'd', '3', '2'}) {";
  "checkFields[20]++";
  "if checkFields[20] > 1 {";
  "err = newParsingError(string(key), fmt.Errorf(""the '%s' field appears in the object twice"", string(key)))";
  "}";
  "return";
  "}";
  "if bytes.Equal(key, []byte{'r', 'e', 'f', '_', 'U', 'i', 'n', 't', '_', 'f', 'l', 'd', '6', '4'}) {";
  "checkFields[21]++";
  "if checkFields[21] > 1 {";
  "err = newParsingError(string(key), fmt.Errorf(""the '%s' field appears in the object twice"", string(key)))";
  "}";
  "return";
  "}";
  "if bytes.Equal(key, []byte{'r', 'e', 'f', '_', 'f', 'l', '2', '3'}) {";
  "checkFields[22]++";
  "if checkFields[22] > 1 {";
  "err = newParsingError(string(key), fmt.Errorf(""the '%s' field appears in the object twice"", string(key)))";
  "}";
  "return";
  "}";
  "if bytes.Equal(key, []byte{'r', 'e', 'f', '_', 'f', 'l', '6', '4'}) {";
  "checkFields[23]++";
  "if checkFields[23] > 1 {";
  "err = newParsingError(string(key), fmt.Errorf(""the '%s' field appears in the object twice"", string(key)))";
  "}";
  "return";
  "}";
  "})";
  "return err"].
Proof. vm_compute. reflexivity. Qed.
Example g_num_NumStruct02_FillFromJSON : fill_text simple_get no_packages no_known g_num $"NumStruct02" = Some [
  "if err = s.validate(v); err != nil {";
  "return err";
  "}";
  "if _intFld := v.Get(""int_fld""); _intFld != nil {";
  "var valIntFld int";
  "valIntFld, err = _intFld.Int()";
  "if err != nil {";
  "return newParsingError(""int_fld"", err)";
  "}";
  "s.IntFld = valIntFld";
  "}";
  "if _intFld8 := v.Get(""int_fld8""); _intFld8 != nil {";
  "var valIntFld8 int";
  "valIntFld8, err = _intFld8.Int()";
  "if err != nil {";
  "return newParsingError(""int_fld8"", err)";
  "}";
  "if valIntFld8 > math.MaxInt8 {";
  "return newParsingError(""int_fld8"", fmt.Errorf(""%d exceeds maximum for data type int8"", valIntFld8))";
  "}";
  "s.IntFld8 = int8(valIntFld8)";
  "}";
  "if _intFld16 := v.Get(""int_fld16""); _intFld16 != nil {";
  "var valIntFld16 int";
  "valIntFld16, err = _intFld16.Int()";
  "if err != nil {";
  "return newParsingError(""int_fld16"", err)";
  "}";
  "if valIntFld16 > math.MaxInt16 {";
  "return newParsingError(""int_fld16"", fmt.Errorf(""%d exceeds maximum for data type int16"", valIntFld16))";
  "}";
  "s.IntFld16 = int16(valIntFld16)";
  "}";
  "if _intFld32 := v.Get(""int_fld32""); _intFld32 != nil {";
  "var valIntFld32 int";
  "valIntFld32, err = _intFld32.Int()";
  "if err != nil {";
  "return newParsingError(""int_fld32"", err)";
  "}";
  "if valIntFld32 > math.MaxInt32 {";
  "return newParsingError(""int_fld32"", fmt.Errorf(""%d exceeds maximum for data type int32"", valIntFld32))";
  "}";
  "s.IntFld32 = int32(valIntFld32)";
  "} else {";
  "s.IntFld32 = 16";
  "}";
  "if _intFld64 := v.Get(""int_fld64""); _intFld64 != nil {";
  "var valIntFld64 int64";
  "valIntFld64, err = _intFld64.Int64()";
  "if err != nil {";
  "return newParsingError(""int_fld64"", err)";
  "}";
  "s.IntFld64 = valIntFld64";
  "}";
  "if _uintFld := v.Get(""Uint_fld""); _uintFld != nil {";
  "var valUintFld uint";
  "valUintFld, err = _uintFld.Uint()";
  "if err != nil {";
  "return newParsingError(""Uint_fld"", err)";
  "}";
  "s.UintFld = valUintFld";
  "}";
  "if _uintFld8 := v.Get(""Uint_fld8""); _uintFld8 != nil {";
  "var valUintFld8 uint";
  "valUintFld8, err = _uintFld8.Uint()";
  "if err != nil {";
  "return newParsingError(""Uint_fld8"", err)";
  "}";
  "if valUintFld8 > math.MaxUint8 {";
  "return newParsingError(""Uint_fld8"", fmt.Errorf(""%d exceeds maximum for data type uint8"", valUintFld8))";
  "}";
  "s.UintFld8 = uint8(valUintFld8)";
  "}";
  "if _uintFld16 := v.Get(""Uint_fld16""); _uintFld16 != nil {";
  "var valUintFld16 uint";
  "valUintFld16, err = _uintFld16.Uint()";
  "if err != nil {";
  "return newParsingError(""Uint_fld16"", err)";
  "}";
  "if valUintFld16 > math.MaxUint16 {";
  "return newParsingError(""Uint_fld16"", fmt.Errorf(""%d exceeds maximum for data type uint16"", valUintFld16))";
  "}";
  "s.UintFld16 = uint16(valUintFld16)";
  "}";
  "if _uintFld32 := v.Get(""Uint_fld32""); _uintFld32 != nil {";
  "var valUintFld32 uint";
  "valUintFld32, err = _uintFld32.Uint()";
  "if err != nil {";
  "return newParsingError(""Uint_fld32"", err)";
  "}";
  "if valUintFld32 > math.MaxUint32 {";
  "return newParsingError(""Uint_fld32"", fmt.Errorf(""%d exceeds maximum for data type uint32"", valUintFld32))";
  "}";
  "s.UintFld32 = uint32(valUintFld32)";
  "}";
  "if _uintFld64 := v.Get(""Uint_fld64""); _uintFld64 != nil {";
  "var valUintFld64 uint64";
  "valUintFld64, err = _uintFld64.Uint64()";
  "if err != nil {";
  "return newParsingError(""Uint_fld64"", err)";
  "}";
  "s.UintFld64 = valUintFld64";
  "}";
  "if _floatFld32 := v.Get(""fl23""); _floatFld32 != nil {";
  "var valFloatFld32 float64";
  "valFloatFld32, err = _floatFld32.Float64()";
  "if err != nil {";
  "return newParsingError(""fl23"", err)";
  "}";
  "if valFloatFld32 > math.MaxFloat32 {";
  "return newParsingError(""fl23"", fmt.Errorf(""%f exceeds maximum for data type float32"", valFloatFld32))";
  "}";
  "s.FloatFld32 = float32(valFloatFld32)";
  "}";
  "if _floatFld64 := v.Get(""fl64""); _floatFld64 != nil {";
  "var valFloatFld64 float64";
  "valFloatFld64, err = _floatFld64.Float64()";
  "if err != nil {";
  "return newParsingError(""fl64"", err)";
  "}";
  "s.FloatFld64 = valFloatFld64";
  "}";
  "if _refIntFld := v.Get(""ref_int_fld""); valueIsNotNull(_refIntFld) {";
  "var valRefIntFld int";
  "valRefIntFld, err = _refIntFld.Int()";
  "if err != nil {";
  "return newParsingError(""ref_int_fld"", err)";
  "}";
  "s.RefIntFld = &valRefIntFld";
  "}";
  "if _refIntFld8 := v.Get(""ref_int_fld8""); valueIsNotNull(_refIntFld8) {";
  "var valRefIntFld8 int";
  "valRefIntFld8, err = _refIntFld8.Int()";
  "if err != nil {";
  "return newParsingError(""ref_int_fld8"", err)";
  "}";
  "if valRefIntFld8 > math.MaxInt8 {";
  "return newParsingError(""ref_int_fld8"", fmt.Errorf(""%d exceeds maximum for data type int8"", valRefIntFld8))";
  "}";
  "s.RefIntFld8 = new(int8)";
  "*s.RefIntFld8 = int8(valRefIntFld8)";
  "}";
  "if _refIntFld16 := v.Get(""ref_int_fld16""); valueIsNotNull(_refIntFld16) {";
  "var valRefIntFld16 int";
  "valRefIntFld16, err = _refIntFld16.Int()";
  "if err != nil {";
  "return newParsingError(""ref_int_fld16"", err)";
  "}";
  "if valRefIntFld16 > math.MaxInt16 {";
  "return newParsingError(""ref_int_fld16"", fmt.Errorf(""%d exceeds maximum for data type int16"", valRefIntFld16))";
  "}";
  "s.RefIntFld16 = new(int16)";
  "*s.RefIntFld16 = int16(valRefIntFld16)";
  "}";
  "if _refIntFld32 := v.Get(""ref_int_fld32""); valueIsNotNull(_refIntFld32) {";
  "var valRefIntFld32 int";
  "valRefIntFld32, err = _refIntFld32.Int()";
  "if err != nil {";
  "return newParsingError(""ref_int_fld32"", err)";
  "}";
  "if valRefIntFld32 > math.MaxInt32 {";
  "return newParsingError(""ref_int_fld32"", fmt.Errorf(""%d exceeds maximum for data type int32"", valRefIntFld32))";
  "}";
  "s.RefIntFld32 = new(int32)";
  "*s.RefIntFld32 = int32(valRefIntFld32)";
  "}";
  "if _refIntFld64 := v.Get(""ref_int_fld64""); valueIsNotNull(_refIntFld64) {";
  "var valRefIntFld64 int64";
  "valRefIntFld64, err = _refIntFld64.Int64()";
  "if err != nil {";
  "return newParsingError(""ref_int_fld64"", err)";
  "}";
  "s.RefIntFld64 = &valRefIntFld64";
  "}";
  "if _refUintFld := v.Get(""ref_Uint_fld""); valueIsNotNull(_refUintFld) {";
  "var valRefUintFld uint";
  "valRefUintFld, err = _refUintFld.Uint()";
  "if err != nil {";
  "return newParsingError(""ref_Uint_fld"", err)";
  "}";
  "s.RefUintFld = new(uint)";
  "*s.RefUintFld = uint(valRefUintFld)";
  "}";
  "if _refUintFld8 := v.Get(""ref_Uint_fld8""); valueIsNotNull(_refUintFld8) {";
  "var valRefUintFld8 uint";
  "valRefUintFld8, err = _refUintFld8.Uint()";
  "if err != nil {";
  "return newParsingError(""ref_Uint_fld8"", err)";
  "}";
  "if valRefUintFld8 > math.MaxUint8 {";
  "return newParsingError(""ref_Uint_fld8"", fmt.Errorf(""%d exceeds maximum for data type uint8"", valRefUintFld8))";
  "}";
  "s.RefUintFld8 = new(uint8)";
  "*s.RefUintFld8 = uint8(valRefUintFld8)";
  "}";
  "if _refUintFld16 := v.Get(""ref_Uint_fld16""); valueIsNotNull(_refUintFld16) {";
  "var valRefUintFld16 uint";
  "valRefUintFld16, err = _refUintFld16.Uint()";
  "if err != nil {";
  "return newParsingError(""ref_Uint_fld16"", err)";
  "}";
  "if valRefUintFld16 > math.MaxUint16 {";
  "return newParsingError(""ref_Uint_fld16"", fmt.Errorf(""%d exceeds maximum for data type uint16"", valRefUintFld16))";
  "}";
  "s.RefUintFld16 = new(uint16)";
  "*s.RefUintFld16 = uint16(valRefUintFld16)";
  "}";
  "if _refUintFld32 := v.Get(""ref_Uint_fld32""); valueIsNotNull(_refUintFld32) {";
  "var valRefUintFld32 uint";
  "valRefUintFld32, err = _refUintFld32.Uint()";
  "if err != nil {";
  "return newParsingError(""ref_Uint_fld32"", err)";
  "}";
  "if valRefUintFld32 > math.MaxUint32 {";
  "return newParsingError(""ref_Uint_fld32"", fmt.Errorf(""%d exceeds maximum for data type uint32"", valRefUintFld32))";
  "}";
  "s.RefUintFld32 = new(uint32)";
  "*s.RefUintFld32 = uint32(valRefUintFld32)";
  "}";
  "if _refUintFld64 := v.Get(""ref_Uint_fld64""); valueIsNotNull(_refUintFld64) {";
  "var valRefUintFld64 uint64";
  "valRefUintFld64, err = _refUintFld64.Uint64()";
  "if err != nil {";
  "return newParsingError(""ref_Uint_fld64"", err)";
  "}";
  "s.RefUintFld64 = new(uint64)";
  "*s.RefUintFld64 = uint64(valRefUintFld64)";
  "}";
  "if _refFloatFld32 := v.Get(""ref_fl23""); valueIsNotNull(_refFloatFld32) {";
  "var valRefFloatFld32 float64";
  "valRefFloatFld32, err = _refFloatFld32.Float64()";
  "if err != nil {";
  "return newParsingError(""ref_fl23"", err)";
  "}";
  "if valRefFloatFld32 > math.MaxFloat32 {";
  "return newParsingError(""ref_fl23"", fmt.Errorf(""%f exceeds maximum for data type float32"", valRefFloatFld32))";
  "}";
  "s.RefFloatFld32 = new(float32)";
  "*s.RefFloatFld32 = float32(valRefFloatFld32)";
  "} else {";
  "if _refFloatFld32 == nil {";
  "var __RefFloatFld32 float32 = 1.234";
  "s.RefFloatFld32 = &__RefFloatFld32";
  "}";
  "}";
  "if _refFloatFld64 := v.Get(""ref_fl64""); valueIsNotNull(_refFloatFld64) {";
  "var valRefFloatFld64 float64";
  "valRefFloatFld64, err = _refFloatFld64.Float64()";
  "if err != nil {";
  "return newParsingError(""ref_fl64"", err)";
  "}";
  "s.RefFloatFld64 = &valRefFloatFld64";
  "}";
  "return nil"].
Proof. vm_compute. reflexivity. Qed.
Example g_num_NumStruct02_validate : validate_text simple_get no_packages no_known g_num $"NumStruct02" = Some [
  "o, err := v.Object()";
  "if err != nil {";
  "return err";
  "}";
  "var checkFields [24]int";
  "o.Visit(func(key []byte, _ *fastjson.Value) {";
  "if err != nil {";
  "return";
  "}";
  "if bytes.Equal(key, []byte{'i', 'n', 't', '_', 'f', 'l', 'd'}) {";
  "checkFields[0]++";
  "if checkFields[0] > 1 {";
  "err = newParsingError(string(key), fmt.Errorf(""the '%s' field appears in the object twice"", string(key)))";
  "}";
  "return";
  "}";
  "if bytes.Equal(key, []byte{'i', 'n', 't', '_', 'f', 'l', 'd', '8'}) {";
  "checkFields[1]++";
  "if checkFields[1] > 1 {";
  "err = newParsingError(string(key), fmt.Errorf(""the '%s' field appears in the object twice"", string(key)))";
  "}";
  "return";
  "}";
  "if bytes.Equal(key, []byte{'i', 'n', 't', '_', 'f', 'l', 'd', '1', '6'}) {";
  "checkFields[2]++";
  "if checkFields[2] > 1 {";
  "err = newParsingError(string(key), fmt.Errorf(""the '%s' field appears in the object twice"", string(key)))";
  "}";
  "return";
  "}";
  "if bytes.Equal(key, []byte{'i', 'n', 't', '_', 'f', 'l', 'd', '3', '2'}) {";
  "checkFields[3]++";
  "if checkFields[3] > 1 {";
  "err = newParsingError(string(key), fmt.Errorf(""the '%s' field appears in the object twice"", string(key)))";
  "}";
  "return";
  "}";
  "if bytes.Equal(key, []byte{'i', 'n', 't', '_', 'f', 'l', 'd', '6', '4'}) {";
  "checkFields[4]++";
  "if checkFields[4] > 1 {";
  "err = newParsingError(string(key), fmt.Errorf(""the '%s' field appears in the object twice"", string(key)))";
  "}";
  "return";
  "}";
  "if bytes.Equal(key, []byte{'U', 'i', 'n', 't', '_', 'f', 'l', 'd'}) {";
  "checkFields[5]++";
  "if checkFields[5] > 1 {";
  "err = newParsingError(string(key), fmt.Errorf(""the '%s' field appears in the object twice"", string(key)))";
  "}";
  "return";
  "}";
  "if bytes.Equal(key, []byte{'U', 'i', 'n', 't', '_', 'f', 'l', 'd', '8'}) {";
  "checkFields[6]++";
  "if checkFields[6] > 1 {";
  "err = newParsingError(string(key), fmt.Errorf(""the '%s' field appears in the object twice"", string(key)))";
  "}";
  "return";
  "}";
  "if bytes.Equal(key, []byte{'U', 'i', 'n', 't', '_', 'f', 'l', 'd', '1', '6'}) {";
  "checkFields[7]++";
  "if checkFields[7] > 1 {";
  "err = newParsingError(string(key), fmt.Errorf(""the '%s' field appears in the object twice"", string(key)))";
  "}";
  "return";
  "}";
  "if bytes.Equal(key, []byte{'U', 'i', 'n', 't', '_', 'f', 'l', 'd', '3', '2'}) {";
  "checkFields[8]++";
  "if checkFields[8] > 1 {";
  "err = newParsingError(string(key), fmt.Errorf(""the '%s' field appears in the object twice"", string(key)))";
  "}";
  "return";
  "}";
  "if bytes.Equal(key, []byte{'U', 'i', 'n', 't', '_', 'f', 'l', 'd', '6', '4'}) {";
  "checkFields[9]++";
  "if checkFields[9] > 1 {";
  "err = newParsingError(string(key), fmt.Errorf(""the '%s' field appears in the object twice"", string(key)))";
  "}";
  "return";
  "}";
  "if bytes.Equal(key, []byte{'f', 'l', '2', '3'}) {";
  "checkFields[10]++";
  "if checkFields[10] > 1 {";
  "err = newParsingError(string(key), fmt.Errorf(""the '%s' field appears in the object twice"", string(key)))";
  "}";
  "return";
  "}";
  "if bytes.Equal(key, []byte{'f', 'l', '6', '4'}) {";
  "checkFields[11]++";
  "if checkFields[11] > 1 {";
  "err = newParsingError(string(key), fmt.Errorf(""the '%s' field appears in the object twice"", string(key)))";
  "}";
  "return";
  "}";
  "if bytes.Equal(key, []byte{'r', 'e', 'f', '_', 'i', 'n', 't', '_', 'f', 'l', 'd'}) {";
  "checkFields[12]++";
  "if checkFields[12] > 1 {";
  "err = newParsingError(string(key), fmt.Errorf(""the '%s' field appears in the object twice"", string(key)))";
  "}";
  "return";
  "}";
  "if bytes.Equal(key, []byte{'r', 'e', 'f', '_', 'i', 'n', 't', '_', 'f', 'l', 'd', '8'}) {";
  "checkFields[13]++";
  "if checkFields[13] > 1 {";
  "err = newParsingError(string(key), fmt.Errorf(""the '%s' field appears in the object twice"", string(key)))";
  "}";
  "return";
  "}";
  "if bytes.Equal(key, []byte{'r', 'e', 'f', '_', 'i', 'n', 't', '_', 'f', 'l', 'd', '1', '6'}) {";
  "checkFields[14]++";
  "if checkFields[14] > 1 {";
  "err = newParsingError(string(key), fmt.Errorf(""the '%s' field appears in the object twice"", string(key)))";
  "}";
  "return";
  "}";
  "if bytes.Equal(key, []byte{'r', 'e', 'f', '_', 'i', 'n', 't', '_', 'f', 'l', 'd', '3', '2'}) {";
  "checkFields[15]++";
  "if checkFields[15] > 1 {";
  "err = newParsingError(string(key), fmt.Errorf(""the '%s' field appears in the object twice"", string(key)))";
  "}";
  "return";
  "}";
  "if bytes.Equal(key, []byte{'r', 'e', 'f', '_', 'i', 'n', 't', '_', 'f', 'l', 'd', '6', '4'}) {";
  "checkFields[16]++";
  "if checkFields[16] > 1 {";
  "err = newParsingError(string(key), fmt.Errorf(""the '%s' field appears in the object twice"", string(key)))";
  "}";
  "return";
  "}";
  "if bytes.Equal(key, []byte{'r', 'e', 'f', '_', 'U', 'i', 'n', 't', '_', 'f', 'l', 'd'}) {";
  "checkFields[17]++";
  "if checkFields[17] > 1 {";
  "err = newParsingError(string(key), fmt.Errorf(""the '%s' field appears in the object twice"", string(key)))";
  "}";
  "return";
  "}";
  "if bytes.Equal(key, []byte{'r', 'e', 'f', '_', 'U', 'i', 'n', 't', '_', 'f', 'l', 'd', '8'}) {";
  "checkFields[18]++";
  "if checkFields[18] > 1 {";
  "err = newParsingError(string(key), fmt.Errorf(""the '%s' field appears in the object twice"", string(key)))";
  "}";
  "return";
  "}";
  "if bytes.Equal(key, []byte{'r', 'e', 'f', '_', 'U', 'i', 'n', 't', '_', 'f', 'l', 'd', '1', '6'}) {";
  "checkFields[19]++";
  "if checkFields[19] > 1 {";
  "err = newParsingError(string(key), fmt.Errorf(""the '%s' field appears in the object twice"", string(key)))";
  "}";
  "return";
  "}";
  "if bytes.Equal(key, []byte{'r', 'e', 'f', '_', 'U', 'i', 'n', 't', '_', 'f', 'l', 'd', '3', '2'}) {";
  "checkFields[20]++";
  "if checkFields[20] > 1 {";
  "err = newParsingError(string(key), fmt.Errorf(""the '%s' field appears in the object twice"", string(key)))";
  "}";
  "return";
  "}";
  "if bytes.Equal(key, []byte{'r', 'e', 'f', '_', 'U', 'i', 'n', 't', '_', 'f', 'l', 'd', '6', '4'}) {";
  "checkFields[21]++";
  "if checkFields[21] > 1 {";
  "err = newParsingError(string(key), fmt.Errorf(""the '%s' field appears in the object twice"", string(key)))";
  "}";
  "return";
  "}";
  "if bytes.Equal(key, []byte{'r', 'e', 'f', '_', 'f', 'l', '2', '3'}) {";
  "checkFields[22]++";
  "if checkFields[22] > 1 {";
  "err = newParsingError(string(key), fmt.Errorf(""the '%s' field appears in the object twice"", string(key)))";
  "}";
  "return";
  "}";
  "if bytes.Equal(key, []byte{'r', 'e', 'f', '_', 'f', 'l', '6', '4'}) {";
  "checkFields[23]++";
  "if checkFields[23] > 1 {";
  "err = newParsingError(string(key), fmt.Errorf(""the '%s' field appears in the object twice"", string(key)))";
  "}";
  "return";
  "}";
  "err = fmt.Errorf(""unexpected field '%s'"", string(key))";
  "})";
  "return err"].
Proof. vm_compute. reflexivity. Qed.
(** ** test/tests/fill/test_packages/14_test_packages.go.out.go *)
Example g_packages_Test01_FillFromJSON : fill_text simple_get g_packages_packages g_packages_known g_packages $"Test01" = Some [
  "if err = s.validate(v); err != nil {";
  "return err";
  "}";
  "if _field := v.Get(""field""); _field != nil {";
  "var valField int64";
  "valField, err = _field.Int64()";
  "if err != nil {";
  "return newParsingError(""field"", err)";
  "}";
  "s.Field = pack_a.Test(valField)";
  "}";
  "return nil"].
Proof. vm_compute. reflexivity. Qed.
Example g_packages_Test01_validate : validate_text simple_get g_packages_packages g_packages_known g_packages $"Test01" = Some [
  "o, err := v.Object()";
  "if err != nil {";
  "return err";
  "}";
  "var checkFields [1]int";
  "o.Visit(func(key []byte, _ *fastjson.Value) {";
  "if err != nil {";
  "return";
  "}";
  "if bytes.Equal(key, []byte{'f', 'i', 'e', 'l', 'd'}) {";
  "checkFields[0]++";
  "if checkFields[0] > 1 {";
  "err = newParsingError(string(key), fmt.Errorf(""the '%s' field appears in the object twice"", string(key)))";
  "}";
  "return";
  "}";
  "})";
  "return err"].
Proof. vm_compute. reflexivity. Qed.
(** ** test/tests/fill/test_slice/03_slice_fld.go.out.go *)
Example g_slice_TestSlice01_FillFromJSON : fill_text simple_get no_packages no_known g_slice $"TestSlice01" = Some [
  "if err = s.validate(v); err != nil {";
  "return err";
  "}";
  "if _field := v.Get(""strs""); valueIsNotNull(_field) {";
  "var listA []*fastjson.Value";
  "listA, err = _field.Array()";
  "if err != nil {";
  "return newParsingError(""strs"", err)";
  "}";
  "valField := s.Field";
  "if l := len(listA); cap(valField) < l || (l == 0 && s.Field == nil) {";
  "valField = make([]string, 0, len(listA))";
  "} else {";
  "valField = s.Field[:0]";
  "}";
  "for _key1, _val1 := range listA {";
  "valField = valField[:len(valField)+1]";
  "var _elem1 []byte";
  "if _elem1, err = _val1.StringBytes(); err != nil {";
  "return newParsingError(strconv.Itoa(_key1), err)";
  "}";
  "valField[_key1] = string(_elem1)";
  "}";
  "if err != nil {";
  "return newParsingError(""strs"", err)";
  "}";
  "s.Field = valField";
  "}";
  "if _fieldRef := v.Get(""ints""); valueIsNotNull(_fieldRef) {";
  "var listA []*fastjson.Value";
  "listA, err = _fieldRef.Array()";
  "if err != nil {";
  "return newParsingError(""ints"", err)";
  "}";
  "valFieldRef := s.FieldRef";
  "if l := len(listA); cap(valFieldRef) < l || (l == 0 && s.FieldRef == nil) {";
  "valFieldRef = make([]*int, 0, len(listA))";
  "} else {";
  "valFieldRef = s.FieldRef[:0]";
  "}";
  "for _key1, _val1 := range listA {";
  "valFieldRef = valFieldRef[:len(valFieldRef)+1]";
  "if !valueIsNotNull(_val1) {";
  "valFieldRef[len(valFieldRef)-1] = nil";
  "continue";
  "}";
  "var _elem1 int";
  "_elem1, err = _val1.Int()";
  "if err != nil {";
  "err = newParsingError(strconv.Itoa(_key1), err)";
  "break";
  "}";
  "newElem := int(_elem1)";
  "valFieldRef[_key1] = &newElem";
  "}";
  "if err != nil {";
  "return newParsingError(""ints"", err)";
  "}";
  "s.FieldRef = valFieldRef";
  "}";
  "return nil"].
Proof. vm_compute. reflexivity. Qed.
Example g_slice_TestSlice01_validate : validate_text simple_get no_packages no_known g_slice $"TestSlice01" = Some [
  "o, err := v.Object()";
  "if err != nil {";
  "return err";
  "}";
  "var checkFields [2]int";
  "o.Visit(func(key []byte, _ *fastjson.Value) {";
  "if err != nil {";
  "return";
  "}";
  "if bytes.Equal(key, []byte{'s', 't', 'r', 's'}) {";
  "checkFields[0]++";
  "if checkFields[0] > 1 {";
  "err = newParsingError(string(key), fmt.Errorf(""the '%s' field appears in the object twice"", string(key)))";
  "}";
  "return";
  "}";
  "if bytes.Equal(key, []byte{'i', 'n', 't', 's'}) {";
  "checkFields[1]++";
  "if checkFields[1] > 1 {";
  "err = newParsingError(string(key), fmt.Errorf(""the '%s' field appears in the object twice"", string(key)))";
  "}";
  "return";
  "}";
  "})";
  "return err"].
Proof. vm_compute. reflexivity. Qed.
Example g_slice_TestSlice03_FillFromJSON : fill_text simple_get no_packages no_known g_slice $"TestSlice03" = Some [
  "if err = s.validate(v); err != nil {";
  "return err";
  "}";
  "if _data := v.Get(""data""); _data != nil {";
  "var valData int64";
  "valData, err = _data.Int64()";
  "if err != nil {";
  "return newParsingError(""data"", err)";
  "}";
  "s.Data = valData";
  "}";
  "return nil"].
Proof. vm_compute. reflexivity. Qed.
Example g_slice_TestSlice03_validate : validate_text simple_get no_packages no_known g_slice $"TestSlice03" = Some [
  "o, err := v.Object()";
  "if err != nil {";
  "return err";
  "}";
  "var checkFields [1]int";
  "o.Visit(func(key []byte, _ *fastjson.Value) {";
  "if err != nil {";
  "return";
  "}";
  "if bytes.Equal(key, []byte{'d', 'a', 't', 'a'}) {";
  "checkFields[0]++";
  "if checkFields[0] > 1 {";
  "err = newParsingError(string(key), fmt.Errorf(""the '%s' field appears in the object twice"", string(key)))";
  "}";
  "return";
  "}";
  "})";
  "return err"].
Proof. vm_compute. reflexivity. Qed.
Example g_slice_TestSlice02_FillFromJSON : fill_text simple_get no_packages no_known g_slice $"TestSlice02" = Some [
  "if v.Type() == fastjson.TypeNull {";
  "return nil";
  "}";
  "a, err := v.Array()";
  "if err != nil {";
  "return err";
  "}";
  "*s = make([]TestSlice03, len(a))";
  "for i, v := range a {";
  "var value TestSlice03";
  "err = value.FillFromJSON(v)";
  "if err != nil {";
  "return newParsingError(fmt.Sprintf(""%d"", i), err)";
  "}";
  "(*s)[i] = TestSlice03(value)";
  "}";
  "return nil"].
Proof. vm_compute. reflexivity. Qed.
Example g_slice_CampaignSites_FillFromJSON : fill_text simple_get no_packages no_known g_slice $"CampaignSites" = Some [
  "if err = s.validate(v); err != nil {";
  "return err";
  "}";
  "if _excluded := v.Get(""excluded""); valueIsNotNull(_excluded) {";
  "var listA []*fastjson.Value";
  "listA, err = _excluded.Array()";
  "if err != nil {";
  "return newParsingError(""excluded"", err)";
  "}";
  "valExcluded := s.Excluded";
  "if l := len(listA); cap(valExcluded) < l || (l == 0 && s.Excluded == nil) {";
  "valExcluded = make([]FieldValueString, 0, len(listA))";
  "} else {";
  "valExcluded = s.Excluded[:0]";
  "}";
  "for _key1, _val1 := range listA {";
  "valExcluded = valExcluded[:len(valExcluded)+1]";
  "var _elem1 []byte";
  "if _elem1, err = _val1.StringBytes(); err != nil {";
  "return newParsingError(strconv.Itoa(_key1), err)";
  "}";
  "if err != nil {";
  "err = newParsingError(strconv.Itoa(_key1), err)";
  "break";
  "}";
  "valExcluded[_key1] = FieldValueString(_elem1)";
  "}";
  "if err != nil {";
  "return newParsingError(""excluded"", err)";
  "}";
  "s.Excluded = valExcluded";
  "}";
  "if _included := v.Get(""included""); valueIsNotNull(_included) {";
  "var listA []*fastjson.Value";
  "listA, err = _included.Array()";
  "if err != nil {";
  "return newParsingError(""included"", err)";
  "}";
  "var valIncluded [5]FieldValueString";
  "if len(listA) != 5 {";
  "return newParsingError(""included"", fmt.Errorf(""array len mismatch""))";
  "}";
  "for _key1, _val1 := range listA {";
  "var _tmp1 []byte";
  "if _tmp1, err = _val1.StringBytes(); err != nil {";
  "return newParsingError(strconv.Itoa(_key1), err)";
  "}";
  "if err != nil {";
  "err = newParsingError(strconv.Itoa(_key1), err)";
  "break";
  "}";
  "valIncluded[_key1] = FieldValueString(_tmp1)";
  "}";
  "if err != nil {";
  "return newParsingError(""included"", err)";
  "}";
  "s.Included = valIncluded";
  "}";
  "return nil"].
Proof. vm_compute. reflexivity. Qed.
Example g_slice_CampaignSites_validate : validate_text simple_get no_packages no_known g_slice $"CampaignSites" = Some [
  "o, err := v.Object()";
  "if err != nil {";
  "return err";
  "}";
  "var checkFields [2]int";
  "o.Visit(func(key []byte, _ *fastjson.Value) {";
  "if err != nil {";
  "return";
  "}";
  "if bytes.Equal(key, []byte{'e', 'x', 'c', 'l', 'u', 'd', 'e', 'd'}) {";
  "checkFields[0]++";
  "if checkFields[0] > 1 {";
  "err = newParsingError(string(key), fmt.Errorf(""the '%s' field appears in the object twice"", string(key)))";
  "}";
  "return";
  "}";
  "if bytes.Equal(key, []byte{'i', 'n', 'c', 'l', 'u', 'd', 'e', 'd'}) {";
  "checkFields[1]++";
  "if checkFields[1] > 1 {";
  "err = newParsingError(string(key), fmt.Errorf(""the '%s' field appears in the object twice"", string(key)))";
  "}";
  "return";
  "}";
  "})";
  "return err"].
Proof. vm_compute. reflexivity. Qed.
Example g_slice_TestSliceSlice_FillFromJSON : fill_text simple_get no_packages no_known g_slice $"TestSliceSlice" = Some [
  "if err = s.validate(v); err != nil {";
  "return err";
  "}";
  "if _fieldStr := v.Get(""strs""); valueIsNotNull(_fieldStr) {";
  "var listA []*fastjson.Value";
  "listA, err = _fieldStr.Array()";
  "if err != nil {";
  "return newParsingError(""strs"", err)";
  "}";
  "valFieldStr := s.FieldStr";
  "if l := len(listA); cap(valFieldStr) < l || (l == 0 && s.FieldStr == nil) {";
  "valFieldStr = make([][]InnerString, 0, len(listA))";
  "} else {";
  "valFieldStr = s.FieldStr[:0]";
  "}";
  "for _key1, _val1 := range listA {";
  "valFieldStr = valFieldStr[:len(valFieldStr)+1]";
  "if !valueIsNotNull(_val1) {";
  "valFieldStr[len(valFieldStr)-1] = nil";
  "continue";
  "}";
  "var listA []*fastjson.Value";
  "listA, err = _val1.Array()";
  "if err != nil {";
  "return newParsingError("""", err)";
  "}";
  "_elem1 := valFieldStr[len(valFieldStr)-1]";
  "if l := len(listA); cap(_elem1) < l || (l == 0 && valFieldStr[len(valFieldStr)-1] == nil) {";
  "_elem1 = make([]InnerString, 0, len(listA))";
  "} else {";
  "_elem1 = valFieldStr[len(valFieldStr)-1][:0]";
  "}";
  "for _key2, _val2 := range listA {";
  "_elem1 = _elem1[:len(_elem1)+1]";
  "var _elem2 []byte";
  "if _elem2, err = _val2.StringBytes(); err != nil {";
  "return newParsingError(strconv.Itoa(_key2), err)";
  "}";
  "if err != nil {";
  "err = newParsingError(strconv.Itoa(_key2), err)";
  "break";
  "}";
  "_elem1[_key2] = InnerString(_elem2)";
  "}";
  "if err != nil {";
  "err = newParsingError(strconv.Itoa(_key1), err)";
  "break";
  "}";
  "valFieldStr[_key1] = []InnerString(_elem1)";
  "}";
  "if err != nil {";
  "return newParsingError(""strs"", err)";
  "}";
  "s.FieldStr = valFieldStr";
  "}";
  "if _fieldInt := v.Get(""ints""); valueIsNotNull(_fieldInt) {";
  "var listA []*fastjson.Value";
  "listA, err = _fieldInt.Array()";
  "if err != nil {";
  "return newParsingError(""ints"", err)";
  "}";
  "valFieldInt := s.FieldInt";
  "if l := len(listA); cap(valFieldInt) < l || (l == 0 && s.FieldInt == nil) {";
  "valFieldInt = make([][]int, 0, len(listA))";
  "} else {";
  "valFieldInt = s.FieldInt[:0]";
  "}";
  "for _key1, _val1 := range listA {";
  "valFieldInt = valFieldInt[:len(valFieldInt)+1]";
  "if !valueIsNotNull(_val1) {";
  "valFieldInt[len(valFieldInt)-1] = nil";
  "continue";
  "}";
  "var listA []*fastjson.Value";
  "listA, err = _val1.Array()";
  "if err != nil {";
  "return newParsingError("""", err)";
  "}";
  "_elem1 := valFieldInt[len(valFieldInt)-1]";
  "if l := len(listA); cap(_elem1) < l || (l == 0 && valFieldInt[len(valFieldInt)-1] == nil) {";
  "_elem1 = make([]int, 0, len(listA))";
  "} else {";
  "_elem1 = valFieldInt[len(valFieldInt)-1][:0]";
  "}";
  "for _key2, _val2 := range listA {";
  "_elem1 = _elem1[:len(_elem1)+1]";
  "var _elem2 int";
  "_elem2, err = _val2.Int()";
  "if err != nil {";
  "err = newParsingError(strconv.Itoa(_key2), err)";
  "break";
  "}";
  "_elem1[_key2] = int(_elem2)";
  "}";
  "if err != nil {";
  "err = newParsingError(strconv.Itoa(_key1), err)";
  "break";
  "}";
  "valFieldInt[_key1] = []int(_elem1)";
  "}";
  "if err != nil {";
  "return newParsingError(""ints"", err)";
  "}";
  "s.FieldInt = valFieldInt";
  "}";
  "return nil"].
Proof. vm_compute. reflexivity. Qed.
Example g_slice_TestSliceSlice_validate : validate_text simple_get no_packages no_known g_slice $"TestSliceSlice" = Some [
  "o, err := v.Object()";
  "if err != nil {";
  "return err";
  "}";
  "var checkFields [2]int";
  "o.Visit(func(key []byte, _ *fastjson.Value) {";
  "if err != nil {";
  "return";
  "}";
  "if bytes.Equal(key, []byte{'s', 't', 'r', 's'}) {";
  "checkFields[0]++";
  "if checkFields[0] > 1 {";
  "err = newParsingError(string(key), fmt.Errorf(""the '%s' field appears in the object twice"", string(key)))";
  "}";
  "return";
  "}";
  "if bytes.Equal(key, []byte{'i', 'n', 't', 's'}) {";
  "checkFields[1]++";
  "if checkFields[1] > 1 {";
  "err = newParsingError(string(key), fmt.Errorf(""the '%s' field appears in the object twice"", string(key)))";
  "}";
  "return";
  "}";
  "})";
  "return err"].
Proof. vm_compute. reflexivity. Qed.
Example g_slice_Bytes_FillFromJSON : fill_text simple_get no_packages no_known g_slice $"Bytes" = Some [
  "if v.Type() != fastjson.TypeNull {";
  "b, err := v.StringBytes()";
  "if err != nil {";
  "return err";
  "}";
  "*s = make([]byte, base64.StdEncoding.DecodedLen(len(b)))";
  "n, err := base64.StdEncoding.Decode(*s, b)";
  "if err != nil {";
  "return err";
  "}";
  "*s = (*s)[:n]";
  "}";
  "return"].
Proof. vm_compute. reflexivity. Qed.
Example g_slice_ArrBytes_FillFromJSON : fill_text simple_get no_packages no_known g_slice $"ArrBytes" = Some [
  "if v.Type() != fastjson.TypeNull {";
  "b, err := v.StringBytes()";
  "if err != nil {";
  "return err";
  "}";
  "n, err := base64.StdEncoding.Decode((*s)[:], b)";
  "if err != nil {";
  "return err";
  "}";
  "if n != len(*s) {";
  "return errors.New(""incomplete data"")";
  "}";
  "}";
  "return"].
Proof. vm_compute. reflexivity. Qed.
Example g_slice_BytesInStruct_FillFromJSON : fill_text simple_get no_packages no_known g_slice $"BytesInStruct" = Some [
  "if err = s.validate(v); err != nil {";
  "return err";
  "}";
  "if _line := v.Get(""line""); _line != nil {";
  "var valLine []byte";
  "if valLine, err = _line.StringBytes(); err != nil {";
  "return newParsingError(""line"", err)";
  "}";
  "s.Line = string(valLine)";
  "}";
  "if _ifBinary := v.Get(""if-binary""); _ifBinary != nil {";
  "var valIfBinary []byte";
  "if _ifBinary.Type() != fastjson.TypeNull {";
  "b, err := _ifBinary.StringBytes()";
  "if err != nil {";
  "return err";
  "}";
  "valIfBinary = make([]byte, base64.StdEncoding.DecodedLen(len(b)))";
  "n, err := base64.StdEncoding.Decode(valIfBinary, b)";
  "if err != nil {";
  "return err";
  "}";
  "valIfBinary = valIfBinary[:n]";
  "}";
  "if err != nil {";
  "return newParsingError(""if-binary"", err)";
  "}";
  "s.IfBinary = Bytes(valIfBinary)";
  "}";
  "if _binary := v.Get(""binary""); _binary != nil {";
  "var valBinary []byte";
  "if _binary.Type() != fastjson.TypeNull {";
  "b, err := _binary.StringBytes()";
  "if err != nil {";
  "return err";
  "}";
  "valBinary = make([]byte, base64.StdEncoding.DecodedLen(len(b)))";
  "n, err := base64.StdEncoding.Decode(valBinary, b)";
  "if err != nil {";
  "return err";
  "}";
  "valBinary = valBinary[:n]";
  "}";
  "if err != nil {";
  "return newParsingError(""binary"", err)";
  "}";
  "s.Binary = Bytes(valBinary)";
  "}";
  "if _arrBinary := v.Get(""arrbinary""); _arrBinary != nil {";
  "var valArrBinary [8]byte";
  "if _arrBinary.Type() != fastjson.TypeNull {";
  "b, err := _arrBinary.StringBytes()";
  "if err != nil {";
  "return err";
  "}";
  "n, err := base64.StdEncoding.Decode(valArrBinary[:], b)";
  "if err != nil {";
  "return err";
  "}";
  "if n != len(valArrBinary) {";
  "return errors.New(""incomplete data"")";
  "}";
  "}";
  "if err != nil {";
  "return newParsingError(""arrbinary"", err)";
  "}";
  "s.ArrBinary = ArrBytes(valArrBinary)";
  "}";
  "if _ifArrBinary := v.Get(""if-arrbinary""); _ifArrBinary != nil {";
  "var valIfArrBinary [8]byte";
  "if _ifArrBinary.Type() != fastjson.TypeNull {";
  "b, err := _ifArrBinary.StringBytes()";
  "if err != nil {";
  "return err";
  "}";
  "n, err := base64.StdEncoding.Decode(valIfArrBinary[:], b)";
  "if err != nil {";
  "return err";
  "}";
  "if n != len(valIfArrBinary) {";
  "return errors.New(""incomplete data"")";
  "}";
  "}";
  "if err != nil {";
  "return newParsingError(""if-arrbinary"", err)";
  "}";
  "s.IfArrBinary = ArrBytes(valIfArrBinary)";
  "}";
  "return nil"].
Proof. vm_compute. reflexivity. Qed.
Example g_slice_BytesInStruct_validate : validate_text simple_get no_packages no_known g_slice $"BytesInStruct" = Some [
  "o, err := v.Object()";
  "if err != nil {";
  "return err";
  "}";
  "var checkFields [5]int";
  "o.Visit(func(key []byte, _ *fastjson.Value) {";
  "if err != nil {";
  "return";
  "}";
  "if bytes.Equal(key, []byte{'l', 'i', 'n', 'e'}) {";
  "checkFields[0]++";
  "if checkFields[0] > 1 {";
  "err = newParsingError(string(key), fmt.Errorf(""the '%s' field appears in the object twice"", string(key)))";
  "}";
  "return";
  "}";
  "if bytes.Equal(key, []byte{'i', 'f', '-', 'b', 'i', 'n', 'a', 'r', 'y'}) {";
  "checkFields[1]++";
  "if checkFields[1] > 1 {";
  "err = newParsingError(string(key), fmt.Errorf(""the '%s' field appears in the object twice"", string(key)))";
  "}";
  "return";
  "}";
  "if bytes.Equal(key, []byte{'b', 'i', 'n', 'a', 'r', 'y'}) {";
  "checkFields[2]++";
  "if checkFields[2] > 1 {";
  "err = newParsingError(string(key), fmt.Errorf(""the '%s' field appears in the object twice"", string(key)))";
  "}";
  "return";
  "}";
  "if bytes.Equal(key, []byte{'a', 'r', 'r', 'b', 'i', 'n', 'a', 'r', 'y'}) {";
  "checkFields[3]++";
  "if checkFields[3] > 1 {";
  "err = newParsingError(string(key), fmt.Errorf(""the '%s' field appears in the object twice"", string(key)))";
  "}";
  "return";
  "}";
  "if bytes.Equal(key, []byte{'i', 'f', '-', 'a', 'r', 'r', 'b', 'i', 'n', 'a', 'r', 'y'}) {";
  "checkFields[4]++";
  "if checkFields[4] > 1 {";
  "err = newParsingError(string(key), fmt.Errorf(""the '%s' field appears in the object twice"", string(key)))";
  "}";
  "return";
  "}";
  "})";
  "return err"].
Proof. vm_compute. reflexivity. Qed.
(** ** test/tests/fill/test_string/01_string_fld.go.out.go *)
Example g_string_TestStr01_FillFromJSON : fill_text simple_get no_packages no_known g_string $"TestStr01" = Some [
  "if err = s.validate(v); err != nil {";
  "return err";
  "}";
  "if _field := v.Get(""field""); _field != nil {";
  "var valField []byte";
  "if valField, err = _field.StringBytes(); err != nil {";
  "return newParsingError(""field"", err)";
  "}";
  "s.Field = string(valField)";
  "}";
  "if _fieldRef := v.Get(""fieldRef""); valueIsNotNull(_fieldRef) {";
  "var valFieldRef []byte";
  "if valFieldRef, err = _fieldRef.StringBytes(); err != nil {";
  "return newParsingError(""fieldRef"", err)";
  "}";
  "var valFieldStr = string(valFieldRef)";
  "s.FieldRef = &valFieldStr";
  "}";
  "if _defRef := v.Get(""defRef""); valueIsNotNull(_defRef) {";
  "var valDefRef []byte";
  "if valDefRef, err = _defRef.StringBytes(); err != nil {";
  "return newParsingError(""defRef"", err)";
  "}";
  "var valFieldStr = string(valDefRef)";
  "s.DefRef = &valFieldStr";
  "} else {";
  "if _defRef == nil {";
  "var __DefRef string = ""default""";
  "s.DefRef = &__DefRef";
  "}";
  "}";
  "return nil"].
Proof. vm_compute. reflexivity. Qed.
Example g_string_TestStr01_validate : validate_text simple_get no_packages no_known g_string $"TestStr01" = Some [
  "o, err := v.Object()";
  "if err != nil {";
  "return err";
  "}";
  "var checkFields [3]int";
  "o.Visit(func(key []byte, _ *fastjson.Value) {";
  "if err != nil {";
  "return";
  "}";
  "if bytes.Equal(key, []byte{'f', 'i', 'e', 'l', 'd'}) {";
  "checkFields[0]++";
  "if checkFields[0] > 1 {";
  "err = newParsingError(string(key), fmt.Errorf(""the '%s' field appears in the object twice"", string(key)))";
  "}";
  "return";
  "}";
  "if bytes.Equal(key, []byte{'f', 'i', 'e', 'l', 'd', 'R', 'e', 'f'}) {";
  "checkFields[1]++";
  "if checkFields[1] > 1 {";
  "err = newParsingError(string(key), fmt.Errorf(""the '%s' field appears in the object twice"", string(key)))";
  "}";
  "return";
  "}";
  "if bytes.Equal(key, []byte{'d', 'e', 'f', 'R', 'e', 'f'}) {";
  "checkFields[2]++";
  "if checkFields[2] > 1 {";
  "err = newParsingError(string(key), fmt.Errorf(""the '%s' field appears in the object twice"", string(key)))";
  "}";
  "return";
  "}";
  "})";
  "return err"].
Proof. vm_compute. reflexivity. Qed.
Example g_string_TestStr02_FillFromJSON : fill_text simple_get no_packages no_known g_string $"TestStr02" = Some [
  "if err = s.validate(v); err != nil {";
  "return err";
  "}";
  "if _field := v.Get(""field""); _field != nil {";
  "var valField []byte";
  "if valField, err = _field.StringBytes(); err != nil {";
  "return newParsingError(""field"", err)";
  "}";
  "s.Field = string(valField)";
  "}";
  "if _fieldRef := v.Get(""fieldRef""); valueIsNotNull(_fieldRef) {";
  "var valFieldRef []byte";
  "if valFieldRef, err = _fieldRef.StringBytes(); err != nil {";
  "return newParsingError(""fieldRef"", err)";
  "}";
  "var valFieldStr = string(valFieldRef)";
  "s.FieldRef = &valFieldStr";
  "}";
  "if _string := v.Get(""string""); _string != nil {";
  "var valString []byte";
  "if valString, err = _string.StringBytes(); err != nil {";
  "return newParsingError(""string"", err)";
  "}";
  "s.String = FieldValueString(valString)";
  "} else {";
  "s.String = ""value-foo-bar""";
  "}";
  "return nil"].
Proof. vm_compute. reflexivity. Qed.
Example g_string_TestStr02_validate : validate_text simple_get no_packages no_known g_string $"TestStr02" = Some [
  "o, err := v.Object()";
  "if err != nil {";
  "return err";
  "}";
  "var checkFields [3]int";
  "o.Visit(func(key []byte, _ *fastjson.Value) {";
  "if err != nil {";
  "return";
  "}";
  "if bytes.Equal(key, []byte{'f', 'i', 'e', 'l', 'd'}) {";
  "checkFields[0]++";
  "if checkFields[0] > 1 {";
  "err = newParsingError(string(key), fmt.Errorf(""the '%s' field appears in the object twice"", string(key)))";
  "}";
  "return";
  "}";
  "if bytes.Equal(key, []byte{'f', 'i', 'e', 'l', 'd', 'R', 'e', 'f'}) {";
  "checkFields[1]++";
  "if checkFields[1] > 1 {";
  "err = newParsingError(string(key), fmt.Errorf(""the '%s' field appears in the object twice"", string(key)))";
  "}";
  "return";
  "}";
  "if bytes.Equal(key, []byte{'s', 't', 'r', 'i', 'n', 'g'}) {";
  "checkFields[2]++";
  "if checkFields[2] > 1 {";
  "err = newParsingError(string(key), fmt.Errorf(""the '%s' field appears in the object twice"", string(key)))";
  "}";
  "return";
  "}";
  "err = fmt.Errorf(""unexpected field '%s'"", string(key))";
  "})";
  "return err"].
Proof. vm_compute. reflexivity. Qed.
(** ** test/tests/fill/test_time/04_time_fld.go.out.go *)
Example g_time_TestTime01_FillFromJSON : fill_text simple_get no_packages no_known g_time $"TestTime01" = Some [
  "if err = s.validate(v); err != nil {";
  "return err";
  "}";
  "if _dateBegin := v.Get(""date_begin""); _dateBegin != nil {";
  "b, err := _dateBegin.StringBytes()";
  "if err != nil {";
  "return newParsingError(""date_begin"", err)";
  "}";
  "valDateBegin, err := parseDateTime(string(b))";
  "if err != nil {";
  "return newParsingError(""date_begin"", err)";
  "}";
  "s.DateBegin = valDateBegin";
  "}";
  "if _dateCustom := v.Get(""date_custom""); _dateCustom != nil {";
  "b, err := _dateCustom.StringBytes()";
  "if err != nil {";
  "return newParsingError(""date_custom"", err)";
  "}";
  "valDateCustom, err := time.Parse(""2006.01.02"", string(b))";
  "if err != nil {";
  "return newParsingError(""date_custom"", err)";
  "}";
  "s.DateCustom = valDateCustom";
  "}";
  "if _dateEnd := v.Get(""date_end""); valueIsNotNull(_dateEnd) {";
  "b, err := _dateEnd.StringBytes()";
  "if err != nil {";
  "return newParsingError(""date_end"", err)";
  "}";
  "valDateEnd, err := parseDateTime(string(b))";
  "if err != nil {";
  "return newParsingError(""date_end"", err)";
  "}";
  "s.DateEnd = new(time.Time)";
  "*s.DateEnd = time.Time(valDateEnd)";
  "}";
  "return nil"].
Proof. vm_compute. reflexivity. Qed.
Example g_time_TestTime01_validate : validate_text simple_get no_packages no_known g_time $"TestTime01" = Some [
  "o, err := v.Object()";
  "if err != nil {";
  "return err";
  "}";
  "var checkFields [3]int";
  "o.Visit(func(key []byte, _ *fastjson.Value) {";
  "if err != nil {";
  "return";
  "}";
  "if bytes.Equal(key, []byte{'d', 'a', 't', 'e', '_', 'b', 'e', 'g', 'i', 'n'}) {";
  "checkFields[0]++";
  "if checkFields[0] > 1 {";
  "err = newParsingError(string(key), fmt.Errorf(""the '%s' field appears in the object twice"", string(key)))";
  "}";
  "return";
  "}";
  "if bytes.Equal(key, []byte{'d', 'a', 't', 'e', '_', 'c', 'u', 's', 't', 'o', 'm'}) {";
  "checkFields[1]++";
  "if checkFields[1] > 1 {";
  "err = newParsingError(string(key), fmt.Errorf(""the '%s' field appears in the object twice"", string(key)))";
  "}";
  "return";
  "}";
  "if bytes.Equal(key, []byte{'d', 'a', 't', 'e', '_', 'e', 'n', 'd'}) {";
  "checkFields[2]++";
  "if checkFields[2] > 1 {";
  "err = newParsingError(string(key), fmt.Errorf(""the '%s' field appears in the object twice"", string(key)))";
  "}";
  "return";
  "}";
  "err = fmt.Errorf(""unexpected field '%s'"", string(key))";
  "})";
  "return err"].
Proof. vm_compute. reflexivity. Qed.
Example g_time_TestTime2_FillFromJSON : fill_text simple_get no_packages no_known g_time $"TestTime2" = Some [
  "b, err := v.StringBytes()";
  "if err != nil {";
  "return newParsingError("""", err)";
  "}";
  "_val, err := parseDateTime(string(b))";
  "if err != nil {";
  "return err";
  "}";
  "*s = TestTime2(_val)";
  "return nil"].
Proof. vm_compute. reflexivity. Qed.
(** ** test/tests/fill/test_trans/09_transitional.go.out.go *)
Example g_trans_TestTransitional_FillFromJSON : fill_text simple_get g_trans_packages g_trans_known g_trans $"TestTransitional" = Some [
  "var _val TestTransitionalElem";
  "err = _val.FillFromJSON(v)";
  "if err != nil {";
  "return err";
  "}";
  "*s = TestTransitional(_val)";
  "return nil"].
Proof. vm_compute. reflexivity. Qed.
Example g_trans_TestTransitionalElem_FillFromJSON : fill_text simple_get g_trans_packages g_trans_known g_trans $"TestTransitionalElem" = Some [
  "if err = s.validate(v); err != nil {";
  "return err";
  "}";
  "if _testField := v.Get(""test-field""); _testField != nil {";
  "var valTestField int64";
  "valTestField, err = _testField.Int64()";
  "if err != nil {";
  "return newParsingError(""test-field"", err)";
  "}";
  "s.TestField = valTestField";
  "}";
  "return nil"].
Proof. vm_compute. reflexivity. Qed.
Example g_trans_TestTransitionalElem_validate : validate_text simple_get g_trans_packages g_trans_known g_trans $"TestTransitionalElem" = Some [
  "o, err := v.Object()";
  "if err != nil {";
  "return err";
  "}";
  "var checkFields [1]int";
  "o.Visit(func(key []byte, _ *fastjson.Value) {";
  "if err != nil {";
  "return";
  "}";
  "if bytes.Equal(key, []byte{'t', 'e', 's', 't', '-', 'f', 'i', 'e', 'l', 'd'}) {";
  "checkFields[0]++";
  "if checkFields[0] > 1 {";
  "err = newParsingError(string(key), fmt.Errorf(""the '%s' field appears in the object twice"", string(key)))";
  "}";
  "return";
  "}";
  "})";
  "return err"].
Proof. vm_compute. reflexivity. Qed.
Example g_trans_TestExternalNested_FillFromJSON : fill_text simple_get g_trans_packages g_trans_known g_trans $"TestExternalNested" = Some [
  "var _val test_extr.ExternalNested";
  "err = _val.FillFromJSON(v)";
  "if err != nil {";
  "return err";
  "}";
  "*s = TestExternalNested(_val)";
  "return nil"].
Proof. vm_compute. reflexivity. Qed.
(** ** test/tests/fill/test_userdefined/12_user_defined.go.out.go *)
Example g_userdefined_TestUserDefined_FillFromJSON : fill_text simple_get g_userdefined_packages g_userdefined_known g_userdefined $"TestUserDefined" = Some [
  "if err = s.validate(v); err != nil {";
  "return err";
  "}";
  "if _int32 := v.Get(""f_int32""); _int32 != nil {";
  "var valInt32 int";
  "valInt32, err = _int32.Int()";
  "if err != nil {";
  "return newParsingError(""f_int32"", err)";
  "}";
  "if valInt32 > math.MaxInt32 {";
  "return newParsingError(""f_int32"", fmt.Errorf(""%d exceeds maximum for data type int32"", valInt32))";
  "}";
  "s.Int32 = DefinedInt32(valInt32)";
  "} else {";
  "s.Int32 = 32";
  "}";
  "if _int64 := v.Get(""f_int64""); _int64 != nil {";
  "var valInt64 int64";
  "valInt64, err = _int64.Int64()";
  "if err != nil {";
  "return newParsingError(""f_int64"", err)";
  "}";
  "s.Int64 = DefinedInt64(valInt64)";
  "}";
  "if _float32 := v.Get(""f_float32""); _float32 != nil {";
  "var valFloat32 float64";
  "valFloat32, err = _float32.Float64()";
  "if err != nil {";
  "return newParsingError(""f_float32"", err)";
  "}";
  "if valFloat32 > math.MaxFloat32 {";
  "return newParsingError(""f_float32"", fmt.Errorf(""%f exceeds maximum for data type float32"", valFloat32))";
  "}";
  "s.Float32 = DefinedFloat32(valFloat32)";
  "} else {";
  "s.Float32 = 123.01";
  "}";
  "if _float64 := v.Get(""f_float64""); _float64 != nil {";
  "var valFloat64 float64";
  "valFloat64, err = _float64.Float64()";
  "if err != nil {";
  "return newParsingError(""f_float64"", err)";
  "}";
  "s.Float64 = DefinedFloat64(valFloat64)";
  "}";
  "if _string := v.Get(""f_string""); _string != nil {";
  "var valString []byte";
  "if valString, err = _string.StringBytes(); err != nil {";
  "return newParsingError(""f_string"", err)";
  "}";
  "s.String = DefinedString(valString)";
  "} else {";
  "s.String = ""default_string""";
  "}";
  "if _bool := v.Get(""f_bool""); _bool != nil {";
  "var valBool bool";
  "valBool, err = _bool.Bool()";
  "if err != nil {";
  "return newParsingError(""f_bool"", err)";
  "}";
  "s.Bool = DefinedBool(valBool)";
  "}";
  "if _refInt32 := v.Get(""r_int32""); valueIsNotNull(_refInt32) {";
  "var valRefInt32 int";
  "valRefInt32, err = _refInt32.Int()";
  "if err != nil {";
  "return newParsingError(""r_int32"", err)";
  "}";
  "if valRefInt32 > math.MaxInt32 {";
  "return newParsingError(""r_int32"", fmt.Errorf(""%d exceeds maximum for data type int32"", valRefInt32))";
  "}";
  "s.RefInt32 = new(DefinedInt32)";
  "*s.RefInt32 = DefinedInt32(valRefInt32)";
  "}";
  "if _refInt64 := v.Get(""r_int64""); valueIsNotNull(_refInt64) {";
  "var valRefInt64 int64";
  "valRefInt64, err = _refInt64.Int64()";
  "if err != nil {";
  "return newParsingError(""r_int64"", err)";
  "}";
  "s.RefInt64 = new(DefinedInt64)";
  "*s.RefInt64 = DefinedInt64(valRefInt64)";
  "}";
  "if _refFloat32 := v.Get(""r_float32""); valueIsNotNull(_refFloat32) {";
  "var valRefFloat32 float64";
  "valRefFloat32, err = _refFloat32.Float64()";
  "if err != nil {";
  "return newParsingError(""r_float32"", err)";
  "}";
  "if valRefFloat32 > math.MaxFloat32 {";
  "return newParsingError(""r_float32"", fmt.Errorf(""%f exceeds maximum for data type float32"", valRefFloat32))";
  "}";
  "s.RefFloat32 = new(DefinedFloat32)";
  "*s.RefFloat32 = DefinedFloat32(valRefFloat32)";
  "}";
  "if _refFloat64 := v.Get(""r_float64""); valueIsNotNull(_refFloat64) {";
  "var valRefFloat64 float64";
  "valRefFloat64, err = _refFloat64.Float64()";
  "if err != nil {";
  "return newParsingError(""r_float64"", err)";
  "}";
  "s.RefFloat64 = new(DefinedFloat64)";
  "*s.RefFloat64 = DefinedFloat64(valRefFloat64)";
  "}";
  "if _refString := v.Get(""r_string""); valueIsNotNull(_refString) {";
  "var valRefString []byte";
  "if valRefString, err = _refString.StringBytes(); err != nil {";
  "return newParsingError(""r_string"", err)";
  "}";
  "s.RefString = new(DefinedString)";
  "*s.RefString = DefinedString(valRefString)";
  "}";
  "if _refBool := v.Get(""r_bool""); valueIsNotNull(_refBool) {";
  "var valRefBool bool";
  "valRefBool, err = _refBool.Bool()";
  "if err != nil {";
  "return newParsingError(""r_bool"", err)";
  "}";
  "s.RefBool = new(DefinedBool)";
  "*s.RefBool = DefinedBool(valRefBool)";
  "}";
  "return nil"].
Proof. vm_compute. reflexivity. Qed.
Example g_userdefined_TestUserDefined_validate : validate_text simple_get g_userdefined_packages g_userdefined_known g_userdefined $"TestUserDefined" = Some [
  "o, err := v.Object()";
  "if err != nil {";
  "return err";
  "}";
  "var checkFields [12]int";
  "o.Visit(func(key []byte, _ *fastjson.Value) {";
  "if err != nil {";
  "return";
  "}";
  "if bytes.Equal(key, []byte{'f', '_', 'i', 'n', 't', '3', '2'}) {";
  "checkFields[0]++";
  "if checkFields[0] > 1 {";
  "err = newParsingError(string(key), fmt.Errorf(""the '%s' field appears in the object twice"", string(key)))";
  "}";
  "return";
  "}";
  "if bytes.Equal(key, []byte{'f', '_', 'i', 'n', 't', '6', '4'}) {";
  "checkFields[1]++";
  "if checkFields[1] > 1 {";
  "err = newParsingError(string(key), fmt.Errorf(""the '%s' field appears in the object twice"", string(key)))";
  "}";
  "return";
  "}";
  "if bytes.Equal(key, []byte{'f', '_', 'f', 'l', 'o', 'a', 't', '3', '2'}) {";
  "checkFields[2]++";
  "if checkFields[2] > 1 {";
  "err = newParsingError(string(key), fmt.Errorf(""the '%s' field appears in the object twice"", string(key)))";
  "}";
  "return";
  "}";
  "if bytes.Equal(key, []byte{'f', '_', 'f', 'l', 'o', 'a', 't', '6', '4'}) {";
  "checkFields[3]++";
  "if checkFields[3] > 1 {";
  "err = newParsingError(string(key), fmt.Errorf(""the '%s' field appears in the object twice"", string(key)))";
  "}";
  "return";
  "}";
  "if bytes.Equal(key, []byte{'f', '_', 's', 't', 'r', 'i', 'n', 'g'}) {";
  "checkFields[4]++";
  "if checkFields[4] > 1 {";
  "err = newParsingError(string(key), fmt.Errorf(""the '%s' field appears in the object twice"", string(key)))";
  "}";
  "return";
  "}";
  "if bytes.Equal(key, []byte{'f', '_', 'b', 'o', 'o', 'l'}) {";
  "checkFields[5]++";
  "if checkFields[5] > 1 {";
  "err = newParsingError(string(key), fmt.Errorf(""the '%s' field appears in the object twice"", string(key)))";
  "}";
  "return";
  "}";
  "if bytes.Equal(key, []byte{'r', '_', 'i', 'n', 't', '3', '2'}) {";
  "checkFields[6]++";
  "if checkFields[6] > 1 {";
  "err = newParsingError(string(key), fmt.Errorf(""the '%s' field appears in the object twice"", string(key)))";
  "}";
  "return";
  "}";
  "if bytes.Equal(key, []byte{'r', '_', 'i', 'n', 't', '6', '4'}) {";
  "checkFields[7]++";
  "if checkFields[7] > 1 {";
  "err = newParsingError(string(key), fmt.Errorf(""the '%s' field appears in the object twice"", string(key)))";
  "}";
  "return";
  "}";
  "if bytes.Equal(key, []byte{'r', '_', 'f', 'l', 'o', 'a', 't', '3', '2'}) {";
  "checkFields[8]++";
  "if checkFields[8] > 1 {";
  "err = newParsingError(string(key), fmt.Errorf(""the '%s' field appears in the object twice"", string(key)))";
  "}";
  "return";
  "}";
  "if bytes.Equal(key, []byte{'r', '_', 'f', 'l', 'o', 'a', 't', '6', '4'}) {";
  "checkFields[9]++";
  "if checkFields[9] > 1 {";
  "err = newParsingError(string(key), fmt.Errorf(""the '%s' field appears in the object twice"", string(key)))";
  "}";
  "return";
  "}";
  "if bytes.Equal(key, []byte{'r', '_', 's', 't', 'r', 'i', 'n', 'g'}) {";
  "checkFields[10]++";
  "if checkFields[10] > 1 {";
  "err = newParsingError(string(key), fmt.Errorf(""the '%s' field appears in the object twice"", string(key)))";
  "}";
  "return";
  "}";
  "if bytes.Equal(key, []byte{'r', '_', 'b', 'o', 'o', 'l'}) {";
  "checkFields[11]++";
  "if checkFields[11] > 1 {";
  "err = newParsingError(string(key), fmt.Errorf(""the '%s' field appears in the object twice"", string(key)))";
  "}";
  "return";
  "}";
  "})";
  "return err"].
Proof. vm_compute. reflexivity. Qed.
Example g_userdefined_TestUserDefinedRef_FillFromJSON : fill_text simple_get g_userdefined_packages g_userdefined_known g_userdefined $"TestUserDefinedRef" = Some [
  "if err = s.validate(v); err != nil {";
  "return err";
  "}";
  "if _int32Ref := v.Get(""d_int32""); _int32Ref != nil {";
  "var valInt32Ref int";
  "valInt32Ref, err = _int32Ref.Int()";
  "if err != nil {";
  "return newParsingError(""d_int32"", err)";
  "}";
  "var _ref int32";
  "_ref = int32(valInt32Ref)";
  "s.Int32Ref = DefinedRefInt32(&_ref)";
  "} else {";
  "var __Int32Ref int32 = 32";
  "s.Int32Ref = DefinedRefInt32(&__Int32Ref)";
  "}";
  "if _int64Ref := v.Get(""d_int64""); _int64Ref != nil {";
  "var valInt64Ref int64";
  "valInt64Ref, err = _int64Ref.Int64()";
  "if err != nil {";
  "return newParsingError(""d_int64"", err)";
  "}";
  "var _ref int64";
  "_ref = valInt64Ref";
  "s.Int64Ref = DefinedRefInt64(&_ref)";
  "}";
  "if _float32Ref := v.Get(""d_float32""); _float32Ref != nil {";
  "var valFloat32Ref float64";
  "valFloat32Ref, err = _float32Ref.Float64()";
  "if err != nil {";
  "return newParsingError(""d_float32"", err)";
  "}";
  "var _ref float32";
  "_ref = float32(valFloat32Ref)";
  "s.Float32Ref = DefinedRefFloat32(&_ref)";
  "} else {";
  "var __Float32Ref float32 = 123.01";
  "s.Float32Ref = DefinedRefFloat32(&__Float32Ref)";
  "}";
  "if _float64Ref := v.Get(""d_float64""); _float64Ref != nil {";
  "var valFloat64Ref float64";
  "valFloat64Ref, err = _float64Ref.Float64()";
  "if err != nil {";
  "return newParsingError(""d_float64"", err)";
  "}";
  "var _ref float64";
  "_ref = valFloat64Ref";
  "s.Float64Ref = DefinedRefFloat64(&_ref)";
  "}";
  "if _stringRef := v.Get(""d_string""); _stringRef != nil {";
  "var valStringRef []byte";
  "if valStringRef, err = _stringRef.StringBytes(); err != nil {";
  "return newParsingError(""d_string"", err)";
  "}";
  "if err != nil {";
  "return newParsingError(""d_string"", err)";
  "}";
  "var _ref string";
  "_ref = string(valStringRef)";
  "s.StringRef = DefinedRefString(&_ref)";
  "} else {";
  "var __StringRef string = ""default_string""";
  "s.StringRef = DefinedRefString(&__StringRef)";
  "}";
  "if _boolRef := v.Get(""d_bool""); _boolRef != nil {";
  "var valBoolRef bool";
  "valBoolRef, err = _boolRef.Bool()";
  "if err != nil {";
  "return newParsingError(""d_bool"", err)";
  "}";
  "var _ref bool";
  "_ref = valBoolRef";
  "s.BoolRef = DefinedRefBool(&_ref)";
  "}";
  "if _refInt32Ref := v.Get(""x_int32""); valueIsNotNull(_refInt32Ref) {";
  "var valRefInt32Ref int";
  "valRefInt32Ref, err = _refInt32Ref.Int()";
  "if err != nil {";
  "return newParsingError(""x_int32"", err)";
  "}";
  "var _ref int32";
  "_ref = int32(valRefInt32Ref)";
  "s.RefInt32Ref = new(DefinedRefInt32)";
  "*s.RefInt32Ref = DefinedRefInt32(&_ref)";
  "} else {";
  "var __RefInt32Ref int32 = 32";
  "s.RefInt32Ref = new(DefinedRefInt32)";
  "*s.RefInt32Ref = DefinedRefInt32(&__RefInt32Ref)";
  "}";
  "if _refInt64Ref := v.Get(""x_int64""); valueIsNotNull(_refInt64Ref) {";
  "var valRefInt64Ref int64";
  "valRefInt64Ref, err = _refInt64Ref.Int64()";
  "if err != nil {";
  "return newParsingError(""x_int64"", err)";
  "}";
  "var _ref int64";
  "_ref = valRefInt64Ref";
  "s.RefInt64Ref = new(DefinedRefInt64)";
  "*s.RefInt64Ref = DefinedRefInt64(&_ref)";
  "}";
  "if _refFloat32Ref := v.Get(""x_float32""); valueIsNotNull(_refFloat32Ref) {";
  "var valRefFloat32Ref float64";
  "valRefFloat32Ref, err = _refFloat32Ref.Float64()";
  "if err != nil {";
  "return newParsingError(""x_float32"", err)";
  "}";
  "var _ref float32";
  "_ref = float32(valRefFloat32Ref)";
  "s.RefFloat32Ref = new(DefinedRefFloat32)";
  "*s.RefFloat32Ref = DefinedRefFloat32(&_ref)";
  "} else {";
  "var __RefFloat32Ref float32 = 123.01";
  "s.RefFloat32Ref = new(DefinedRefFloat32)";
  "*s.RefFloat32Ref = DefinedRefFloat32(&__RefFloat32Ref)";
  "}";
  "if _refFloat64Ref := v.Get(""x_float64""); valueIsNotNull(_refFloat64Ref) {";
  "var valRefFloat64Ref float64";
  "valRefFloat64Ref, err = _refFloat64Ref.Float64()";
  "if err != nil {";
  "return newParsingError(""x_float64"", err)";
  "}";
  "var _ref float64";
  "_ref = valRefFloat64Ref";
  "s.RefFloat64Ref = new(DefinedRefFloat64)";
  "*s.RefFloat64Ref = DefinedRefFloat64(&_ref)";
  "}";
  "if _refStringRef := v.Get(""x_string""); valueIsNotNull(_refStringRef) {";
  "var valRefStringRef []byte";
  "if valRefStringRef, err = _refStringRef.StringBytes(); err != nil {";
  "return newParsingError(""x_string"", err)";
  "}";
  "if err != nil {";
  "return newParsingError(""x_string"", err)";
  "}";
  "var _ref string";
  "_ref = string(valRefStringRef)";
  "s.RefStringRef = new(DefinedRefString)";
  "*s.RefStringRef = DefinedRefString(&_ref)";
  "} else {";
  "var __RefStringRef string = ""default_string""";
  "s.RefStringRef = new(DefinedRefString)";
  "*s.RefStringRef = DefinedRefString(&__RefStringRef)";
  "}";
  "if _refBoolRef := v.Get(""x_bool""); valueIsNotNull(_refBoolRef) {";
  "var valRefBoolRef bool";
  "valRefBoolRef, err = _refBoolRef.Bool()";
  "if err != nil {";
  "return newParsingError(""x_bool"", err)";
  "}";
  "var _ref bool";
  "_ref = valRefBoolRef";
  "s.RefBoolRef = new(DefinedRefBool)";
  "*s.RefBoolRef = DefinedRefBool(&_ref)";
  "}";
  "return nil"].
Proof. vm_compute. reflexivity. Qed.
Example g_userdefined_TestUserDefinedRef_validate : validate_text simple_get g_userdefined_packages g_userdefined_known g_userdefined $"TestUserDefinedRef" = Some [
  "o, err := v.Object()";
  "if err != nil {";
  "return err";
  "}";
  "var checkFields [12]int";
  "o.Visit(func(key []byte, _ *fastjson.Value) {";
  "if err != nil {";
  "return";
  "}";
  "if bytes.Equal(key, []byte{'d', '_', 'i', 'n', 't', '3', '2'}) {";
  "checkFields[0]++";
  "if checkFields[0] > 1 {";
  "err = newParsingError(string(key), fmt.Errorf(""the '%s' field appears in the object twice"", string(key)))";
  "}";
  "return";
  "}";
  "if bytes.Equal(key, []byte{'d', '_', 'i', 'n', 't', '6', '4'}) {";
  "checkFields[1]++";
  "if checkFields[1] > 1 {";
  "err = newParsingError(string(key), fmt.Errorf(""the '%s' field appears in the object twice"", string(key)))";
  "}";
  "return";
  "}";
  "if bytes.Equal(key, []byte{'d', '_', 'f', 'l', 'o', 'a', 't', '3', '2'}) {";
  "checkFields[2]++";
  "if checkFields[2] > 1 {";
  "err = newParsingError(string(key), fmt.Errorf(""the '%s' field appears in the object twice"", string(key)))";
  "}";
  "return";
  "}";
  "if bytes.Equal(key, []byte{'d', '_', 'f', 'l', 'o', 'a', 't', '6', '4'}) {";
  "checkFields[3]++";
  "if checkFields[3] > 1 {";
  "err = newParsingError(string(key), fmt.Errorf(""the '%s' field appears in the object twice"", string(key)))";
  "}";
  "return";
  "}";
  "if bytes.Equal(key, []byte{'d', '_', 's', 't', 'r', 'i', 'n', 'g'}) {";
  "checkFields[4]++";
  "if checkFields[4] > 1 {";
  "err = newParsingError(string(key), fmt.Errorf(""the '%s' field appears in the object twice"", string(key)))";
  "}";
  "return";
  "}";
  "if bytes.Equal(key, []byte{'d', '_', 'b', 'o', 'o', 'l'}) {";
  "checkFields[5]++";
  "if checkFields[5] > 1 {";
  "err = newParsingError(string(key), fmt.Errorf(""the '%s' field appears in the object twice"", string(key)))";
  "}";
  "return";
  "}";
  "if bytes.Equal(key, []byte{'x', '_', 'i', 'n', 't', '3', '2'}) {";
  "checkFields[6]++";
  "if checkFields[6] > 1 {";
  "err = newParsingError(string(key), fmt.Errorf(""the '%s' field appears in the object twice"", string(key)))";
  "}";
  "return";
  "}";
  "if bytes.Equal(key, []byte{'x', '_', 'i', 'n', 't', '6', '4'}) {";
  "checkFields[7]++";
  "if checkFields[7] > 1 {";
  "err = newParsingError(string(key), fmt.Errorf(""the '%s' field appears in the object twice"", string(key)))";
  "}";
  "return";
  "}";
  "if bytes.Equal(key, []byte{'x', '_', 'f', 'l', 'o', 'a', 't', '3', '2'}) {";
  "checkFields[8]++";
  "if checkFields[8] > 1 {";
  "err = newParsingError(string(key), fmt.Errorf(""the '%s' field appears in the object twice"", string(key)))";
  "}";
  "return";
  "}";
  "if bytes.Equal(key, []byte{'x', '_', 'f', 'l', 'o', 'a', 't', '6', '4'}) {";
  "checkFields[9]++";
  "if checkFields[9] > 1 {";
  "err = newParsingError(string(key), fmt.Errorf(""the '%s' field appears in the object twice"", string(key)))";
  "}";
  "return";
  "}";
  "if bytes.Equal(key, []byte{'x', '_', 's', 't', 'r', 'i', 'n', 'g'}) {";
  "checkFields[10]++";
  "if checkFields[10] > 1 {";
  "err = newParsingError(string(key), fmt.Errorf(""the '%s' field appears in the object twice"", string(key)))";
  "}";
  "return";
  "}";
  "if bytes.Equal(key, []byte{'x', '_', 'b', 'o', 'o', 'l'}) {";
  "checkFields[11]++";
  "if checkFields[11] > 1 {";
  "err = newParsingError(string(key), fmt.Errorf(""the '%s' field appears in the object twice"", string(key)))";
  "}";
  "return";
  "}";
  "})";
  "return err"].
Proof. vm_compute. reflexivity. Qed.
Example g_userdefined_DefinedFieldAsUserDefined_FillFromJSON : fill_text simple_get g_userdefined_packages g_userdefined_known g_userdefined $"DefinedFieldAsUserDefined" = Some [
  "if err = s.validate(v); err != nil {";
  "return err";
  "}";
  "if _status := v.Get(""status""); _status != nil {";
  "var valStatus []byte";
  "if valStatus, err = _status.StringBytes(); err != nil {";
  "return newParsingError(""status"", err)";
  "}";
  "s.Status = userdefined.DefinedFieldAsUserDefinedStatus(valStatus)";
  "}";
  "if _time := v.Get(""time""); _time != nil {";
  "b, err := _time.StringBytes()";
  "if err != nil {";
  "return newParsingError(""time"", err)";
  "}";
  "valTime, err := parseDateTime(string(b))";
  "if err != nil {";
  "return newParsingError(""time"", err)";
  "}";
  "s.Time = valTime";
  "}";
  "return nil"].
Proof. vm_compute. reflexivity. Qed.
Example g_userdefined_DefinedFieldAsUserDefined_validate : validate_text simple_get g_userdefined_packages g_userdefined_known g_userdefined $"DefinedFieldAsUserDefined" = Some [
  "o, err := v.Object()";
  "if err != nil {";
  "return err";
  "}";
  "var checkFields [2]int";
  "o.Visit(func(key []byte, _ *fastjson.Value) {";
  "if err != nil {";
  "return";
  "}";
  "if bytes.Equal(key, []byte{'s', 't', 'a', 't', 'u', 's'}) {";
  "checkFields[0]++";
  "if checkFields[0] > 1 {";
  "err = newParsingError(string(key), fmt.Errorf(""the '%s' field appears in the object twice"", string(key)))";
  "}";
  "return";
  "}";
  "if bytes.Equal(key, []byte{'t', 'i', 'm', 'e'}) {";
  "checkFields[1]++";
  "if checkFields[1] > 1 {";
  "err = newParsingError(string(key), fmt.Errorf(""the '%s' field appears in the object twice"", string(key)))";
  "}";
  "return";
  "}";
  "})";
  "return err"].
Proof. vm_compute. reflexivity. Qed.
(** ** test/tests/fill/test_uuid/08_uuid_fld.go.out.go *)
Example g_uuid_TestUUID_FillFromJSON : fill_text simple_get no_packages no_known g_uuid $"TestUUID" = Some [
  "if err = s.validate(v); err != nil {";
  "return err";
  "}";
  "if _uUID := v.Get(""uuid""); _uUID != nil {";
  "var valUUID uuid.UUID";
  "b, err := _uUID.StringBytes()";
  "if err != nil {";
  "return newParsingError(""uuid"", err)";
  "}";
  "valUUID, err = uuid.ParseBytes(b)";
  "if err != nil {";
  "return newParsingError(""uuid"", err)";
  "}";
  "s.UUID = valUUID";
  "}";
  "return nil"].
Proof. vm_compute. reflexivity. Qed.
Example g_uuid_TestUUID_validate : validate_text simple_get no_packages no_known g_uuid $"TestUUID" = Some [
  "o, err := v.Object()";
  "if err != nil {";
  "return err";
  "}";
  "var checkFields [1]int";
  "o.Visit(func(key []byte, _ *fastjson.Value) {";
  "if err != nil {";
  "return";
  "}";
  "if bytes.Equal(key, []byte{'u', 'u', 'i', 'd'}) {";
  "checkFields[0]++";
  "if checkFields[0] > 1 {";
  "err = newParsingError(string(key), fmt.Errorf(""the '%s' field appears in the object twice"", string(key)))";
  "}";
  "return";
  "}";
  "})";
  "return err"].
Proof. vm_compute. reflexivity. Qed.
Example g_uuid_InheritUUID2_FillFromJSON : fill_text simple_get no_packages no_known g_uuid $"InheritUUID2" = Some [
  "var _val uuid.UUID";
  "b, err := v.StringBytes()";
  "if err != nil {";
  "return newParsingError("""", err)";
  "}";
  "_val, err = uuid.ParseBytes(b)";
  "if err != nil {";
  "return err";
  "}";
  "*s = InheritUUID2(_val)";
  "return nil"].
Proof. vm_compute. reflexivity. Qed.
Example g_uuid_InheritUUID_FillFromJSON : fill_text simple_get no_packages no_known g_uuid $"InheritUUID" = Some [
  "var _val uuid.UUID";
  "b, err := v.StringBytes()";
  "if err != nil {";
  "return newParsingError("""", err)";
  "}";
  "_val, err = uuid.ParseBytes(b)";
  "if err != nil {";
  "return err";
  "}";
  "*s = InheritUUID(_val)";
  "return nil"].
Proof. vm_compute. reflexivity. Qed.
