(** The encoding templates against the generated files kept in /repo/test/tests/fill: for every
    type of every test package the bodies of MarshalTo, IsZero and Reset, line by line (comments
    and indentation left out). These are tests of the transcription in TemplEnc.v, not theorems. *)
From Coq Require Import List Ascii String ZArith NArith Bool.
From Verif Require Import Base Num Json Types Gen SamplesGen GoAst Templ TemplEnc PrintGo GoldenSrc.
Import ListNotations.
Local Open Scope string_scope.
Local Open Scope list_scope.

(** time.Time{}.Format for the two layouts used. *)
Definition golden_date (l : bytes) : bytes :=
  if beq l $"2006.01.02" then $"0001.01.01" else $"0001-01-01T00:00:00Z".
Definition golden_marshal tag_get packages known := marshal_text tag_get packages known golden_date.

(** ** test/tests/fill/test_any/07_anyof_fld.go.out.go *)
Example g_any_TestOneOfInteger_MarshalTo : golden_marshal simple_get no_packages no_known g_any $"TestOneOfInteger" = Some [
  "if s == nil {";
  "result.RawString(""null"")";
  "return nil";
  "}";
  "result.Int64(int64(*s))";
  "return nil"].
Proof. vm_compute. reflexivity. Qed.
Example g_any_TestOneOfInteger_IsZero : is_zero_text simple_get no_packages no_known g_any $"TestOneOfInteger" = Some [
  "return s == TestOneOfInteger(0)"].
Proof. vm_compute. reflexivity. Qed.
Example g_any_TestOneOfInteger_Reset : reset_text simple_get no_packages no_known g_any $"TestOneOfInteger" = Some [
  "var tmp = (*int64)(s)";
  "*tmp = 0"].
Proof. vm_compute. reflexivity. Qed.
Example g_any_TestOneOfString_MarshalTo : golden_marshal simple_get no_packages no_known g_any $"TestOneOfString" = Some [
  "if s == nil {";
  "result.RawString(""null"")";
  "return nil";
  "}";
  "result.String(string(*s))";
  "return nil"].
Proof. vm_compute. reflexivity. Qed.
Example g_any_TestOneOfString_IsZero : is_zero_text simple_get no_packages no_known g_any $"TestOneOfString" = Some [
  "return s == TestOneOfString("""")"].
Proof. vm_compute. reflexivity. Qed.
Example g_any_TestOneOfString_Reset : reset_text simple_get no_packages no_known g_any $"TestOneOfString" = Some [
  "var tmp = (*string)(s)";
  "*tmp = """""].
Proof. vm_compute. reflexivity. Qed.
Example g_any_TestOneOfStruct_MarshalTo : golden_marshal simple_get no_packages no_known g_any $"TestOneOfStruct" = Some [
  "if s == nil {";
  "result.RawString(""null"")";
  "return nil";
  "}";
  "var (";
  "err       error";
  "wantComma bool";
  ")";
  "result.RawByte('{')";
  "if wantComma {";
  "result.RawByte(',')";
  "}";
  "if s.Class != """" {";
  "result.RawString(`""class"":`)";
  "result.String(s.Class)";
  "wantComma = true";
  "} else {";
  "result.RawString(`""class"":""""`)";
  "wantComma = true";
  "}";
  "if wantComma {";
  "result.RawByte(',')";
  "}";
  "if s.Value != 0 {";
  "result.RawString(`""width"":`)";
  "result.Float64(s.Value)";
  "wantComma = true";
  "} else {";
  "result.RawString(`""width"":0`)";
  "wantComma = true";
  "}";
  "result.RawByte('}')";
  "err = result.Error";
  "return err"].
Proof. vm_compute. reflexivity. Qed.
Example g_any_TestOneOfStruct_IsZero : is_zero_text simple_get no_packages no_known g_any $"TestOneOfStruct" = Some [
  "if s.Class != """" {";
  "return false";
  "}";
  "if s.Value != 0 {";
  "return false";
  "}";
  "return true"].
Proof. vm_compute. reflexivity. Qed.
Example g_any_TestOneOfStruct_Reset : reset_text simple_get no_packages no_known g_any $"TestOneOfStruct" = Some [
  "s.Class = """"";
  "s.Value = 0"].
Proof. vm_compute. reflexivity. Qed.
Example g_any_TestAllOfSecond_MarshalTo : golden_marshal simple_get no_packages no_known g_any $"TestAllOfSecond" = Some [
  "if s == nil {";
  "result.RawString(""null"")";
  "return nil";
  "}";
  "var (";
  "err       error";
  "wantComma bool";
  ")";
  "result.RawByte('{')";
  "if wantComma {";
  "result.RawByte(',')";
  "}";
  "if s.Comment != """" {";
  "result.RawString(`""comment"":`)";
  "result.String(s.Comment)";
  "wantComma = true";
  "} else {";
  "result.RawString(`""comment"":""""`)";
  "wantComma = true";
  "}";
  "if s.Level != 0 {";
  "if wantComma {";
  "result.RawByte(',')";
  "}";
  "result.RawString(`""level"":`)";
  "result.Int64(s.Level)";
  "wantComma = true";
  "}";
  "result.RawByte('}')";
  "err = result.Error";
  "return err"].
Proof. vm_compute. reflexivity. Qed.
Example g_any_TestAllOfSecond_IsZero : is_zero_text simple_get no_packages no_known g_any $"TestAllOfSecond" = Some [
  "if s.Comment != """" {";
  "return false";
  "}";
  "if s.Level != 0 {";
  "return false";
  "}";
  "return true"].
Proof. vm_compute. reflexivity. Qed.
Example g_any_TestAllOfSecond_Reset : reset_text simple_get no_packages no_known g_any $"TestAllOfSecond" = Some [
  "s.Comment = """"";
  "s.Level = 0"].
Proof. vm_compute. reflexivity. Qed.
Example g_any_TestAllOfThird_MarshalTo : golden_marshal simple_get no_packages no_known g_any $"TestAllOfThird" = Some [
  "if s == nil {";
  "result.RawString(""null"")";
  "return nil";
  "}";
  "var (";
  "err       error";
  "wantComma bool";
  ")";
  "result.RawByte('{')";
  "if s.Command != """" {";
  "if wantComma {";
  "result.RawByte(',')";
  "}";
  "result.RawString(`""command"":`)";
  "result.String(s.Command)";
  "wantComma = true";
  "}";
  "if s.Range != 0 {";
  "if wantComma {";
  "result.RawByte(',')";
  "}";
  "result.RawString(`""range"":`)";
  "result.Int64(s.Range)";
  "wantComma = true";
  "}";
  "result.RawByte('}')";
  "err = result.Error";
  "return err"].
Proof. vm_compute. reflexivity. Qed.
Example g_any_TestAllOfThird_IsZero : is_zero_text simple_get no_packages no_known g_any $"TestAllOfThird" = Some [
  "if s.Command != """" {";
  "return false";
  "}";
  "if s.Range != 0 {";
  "return false";
  "}";
  "return true"].
Proof. vm_compute. reflexivity. Qed.
Example g_any_TestAllOfThird_Reset : reset_text simple_get no_packages no_known g_any $"TestAllOfThird" = Some [
  "s.Command = """"";
  "s.Range = 0"].
Proof. vm_compute. reflexivity. Qed.
(** ** test/tests/fill/test_bool/11_bool_fld.go.out.go *)
Example g_bool_TestBool01_MarshalTo : golden_marshal simple_get no_packages no_known g_bool $"TestBool01" = Some [
  "if s == nil {";
  "result.RawString(""null"")";
  "return nil";
  "}";
  "var (";
  "err       error";
  "wantComma bool";
  ")";
  "result.RawByte('{')";
  "if wantComma {";
  "result.RawByte(',')";
  "}";
  "if s.Bool {";
  "result.RawString(`""bl"":true`)";
  "wantComma = true";
  "} else {";
  "result.RawString(`""bl"":false`)";
  "wantComma = true";
  "}";
  "if s.BlMaybe {";
  "if wantComma {";
  "result.RawByte(',')";
  "}";
  "result.RawString(`""mb"":true`)";
  "wantComma = true";
  "}";
  "if wantComma {";
  "result.RawByte(',')";
  "}";
  "if s.RefBool != nil {";
  "if *s.RefBool {";
  "result.RawString(`""refBool"":true`)";
  "} else {";
  "result.RawString(`""refBool"":false`)";
  "}";
  "wantComma = true";
  "} else {";
  "result.RawString(`""refBool"":null`)";
  "}";
  "if s.RefMaybe != nil {";
  "if wantComma {";
  "result.RawByte(',')";
  "}";
  "if *s.RefMaybe {";
  "result.RawString(`""refMaybe"":true`)";
  "} else {";
  "result.RawString(`""refMaybe"":false`)";
  "}";
  "wantComma = true";
  "}";
  "if wantComma {";
  "result.RawByte(',')";
  "}";
  "if s.DefBool {";
  "result.RawString(`""defBool"":true`)";
  "wantComma = true";
  "} else {";
  "result.RawString(`""defBool"":false`)";
  "wantComma = true";
  "}";
  "result.RawByte('}')";
  "err = result.Error";
  "return err"].
Proof. vm_compute. reflexivity. Qed.
Example g_bool_TestBool01_IsZero : is_zero_text simple_get no_packages no_known g_bool $"TestBool01" = Some [
  "if s.Bool != false {";
  "return false";
  "}";
  "if s.BlMaybe != false {";
  "return false";
  "}";
  "if s.RefBool != nil {";
  "return false";
  "}";
  "if s.RefMaybe != nil {";
  "return false";
  "}";
  "if s.DefBool != false {";
  "return false";
  "}";
  "return true"].
Proof. vm_compute. reflexivity. Qed.
Example g_bool_TestBool01_Reset : reset_text simple_get no_packages no_known g_bool $"TestBool01" = Some [
  "s.Bool = false";
  "s.BlMaybe = false";
  "s.RefBool = nil";
  "s.RefMaybe = nil";
  "s.DefBool = false"].
Proof. vm_compute. reflexivity. Qed.
Example g_bool_TestBool02_MarshalTo : golden_marshal simple_get no_packages no_known g_bool $"TestBool02" = Some [
  "if s == nil {";
  "result.RawString(""null"")";
  "return nil";
  "}";
  "var (";
  "err       error";
  "wantComma bool";
  ")";
  "result.RawByte('{')";
  "if wantComma {";
  "result.RawByte(',')";
  "}";
  "if s.I {";
  "result.RawString(`""i"":true`)";
  "wantComma = true";
  "} else {";
  "result.RawString(`""i"":false`)";
  "wantComma = true";
  "}";
  "if s.X {";
  "if wantComma {";
  "result.RawByte(',')";
  "}";
  "result.RawString(`""x"":true`)";
  "wantComma = true";
  "}";
  "result.RawByte('}')";
  "err = result.Error";
  "return err"].
Proof. vm_compute. reflexivity. Qed.
Example g_bool_TestBool02_IsZero : is_zero_text simple_get no_packages no_known g_bool $"TestBool02" = Some [
  "if s.I != false {";
  "return false";
  "}";
  "if s.X != false {";
  "return false";
  "}";
  "return true"].
Proof. vm_compute. reflexivity. Qed.
Example g_bool_TestBool02_Reset : reset_text simple_get no_packages no_known g_bool $"TestBool02" = Some [
  "s.I = TestInhBool(false)";
  "s.X = TestInhBool(false)"].
Proof. vm_compute. reflexivity. Qed.
Example g_bool_TestInhBool_MarshalTo : golden_marshal simple_get no_packages no_known g_bool $"TestInhBool" = Some [
  "if s == nil {";
  "result.RawString(""null"")";
  "return nil";
  "}";
  "if *s {";
  "result.RawString(""true"")";
  "} else {";
  "result.RawString(""false"")";
  "}";
  "return nil"].
Proof. vm_compute. reflexivity. Qed.
Example g_bool_TestInhBool_IsZero : is_zero_text simple_get no_packages no_known g_bool $"TestInhBool" = Some [
  "return s == TestInhBool(false)"].
Proof. vm_compute. reflexivity. Qed.
Example g_bool_TestInhBool_Reset : reset_text simple_get no_packages no_known g_bool $"TestInhBool" = Some [
  "var tmp = (*bool)(s)";
  "*tmp = false"].
Proof. vm_compute. reflexivity. Qed.
Example g_bool_TestBool03_MarshalTo : golden_marshal simple_get no_packages no_known g_bool $"TestBool03" = Some [
  "if s == nil {";
  "result.RawString(""null"")";
  "return nil";
  "}";
  "var (";
  "err       error";
  "wantComma bool";
  ")";
  "result.RawByte('{')";
  "if wantComma {";
  "result.RawByte(',')";
  "}";
  "if s.Required {";
  "result.RawString(`""required"":true`)";
  "wantComma = true";
  "} else {";
  "result.RawString(`""required"":false`)";
  "wantComma = true";
  "}";
  "result.RawByte('}')";
  "err = result.Error";
  "return err"].
Proof. vm_compute. reflexivity. Qed.
Example g_bool_TestBool03_IsZero : is_zero_text simple_get no_packages no_known g_bool $"TestBool03" = Some [
  "if s.Required != false {";
  "return false";
  "}";
  "return true"].
Proof. vm_compute. reflexivity. Qed.
Example g_bool_TestBool03_Reset : reset_text simple_get no_packages no_known g_bool $"TestBool03" = Some [
  "s.Required = false"].
Proof. vm_compute. reflexivity. Qed.
Example g_bool_TestBool04_MarshalTo : golden_marshal simple_get no_packages no_known g_bool $"TestBool04" = Some [
  "if s == nil {";
  "result.RawString(""null"")";
  "return nil";
  "}";
  "var (";
  "err       error";
  "wantComma bool";
  ")";
  "result.RawByte('{')";
  "if wantComma {";
  "result.RawByte(',')";
  "}";
  "if s.Required {";
  "result.RawString(`""required"":true`)";
  "wantComma = true";
  "} else {";
  "result.RawString(`""required"":false`)";
  "wantComma = true";
  "}";
  "result.RawByte('}')";
  "err = result.Error";
  "return err"].
Proof. vm_compute. reflexivity. Qed.
Example g_bool_TestBool04_IsZero : is_zero_text simple_get no_packages no_known g_bool $"TestBool04" = Some [
  "if s.Required != false {";
  "return false";
  "}";
  "return true"].
Proof. vm_compute. reflexivity. Qed.
Example g_bool_TestBool04_Reset : reset_text simple_get no_packages no_known g_bool $"TestBool04" = Some [
  "s.Required = false"].
Proof. vm_compute. reflexivity. Qed.
Example g_bool_TestBool05_MarshalTo : golden_marshal simple_get no_packages no_known g_bool $"TestBool05" = Some [
  "if s == nil {";
  "result.RawString(""null"")";
  "return nil";
  "}";
  "var (";
  "err       error";
  "wantComma bool";
  ")";
  "result.RawByte('{')";
  "if s.Required {";
  "if wantComma {";
  "result.RawByte(',')";
  "}";
  "result.RawString(`""required"":true`)";
  "wantComma = true";
  "}";
  "result.RawByte('}')";
  "err = result.Error";
  "return err"].
Proof. vm_compute. reflexivity. Qed.
Example g_bool_TestBool05_IsZero : is_zero_text simple_get no_packages no_known g_bool $"TestBool05" = Some [
  "if s.Required != false {";
  "return false";
  "}";
  "return true"].
Proof. vm_compute. reflexivity. Qed.
Example g_bool_TestBool05_Reset : reset_text simple_get no_packages no_known g_bool $"TestBool05" = Some [
  "s.Required = false"].
Proof. vm_compute. reflexivity. Qed.
(** ** test/tests/fill/test_extr/extr.go.out.go *)
Example g_extr_External_MarshalTo : golden_marshal simple_get g_extr_packages g_extr_known g_extr $"External" = Some [
  "if s == nil {";
  "result.RawString(""null"")";
  "return nil";
  "}";
  "var (";
  "err       error";
  "wantComma bool";
  ")";
  "result.RawByte('{')";
  "if wantComma {";
  "result.RawByte(',')";
  "}";
  "result.RawString(`""test1"":`)";
  "if err = s.Test01.MarshalTo(result); err != nil {";
  "return fmt.Errorf(`can't marshal ""test1"" attribute: %w`, err)";
  "}";
  "wantComma = true";
  "if !s.Test02.IsZero() {";
  "if wantComma {";
  "result.RawByte(',')";
  "}";
  "result.RawString(`""test2"":`)";
  "if err = s.Test02.MarshalTo(result); err != nil {";
  "return fmt.Errorf(`can't marshal ""test2"" attribute: %w`, err)";
  "}";
  "wantComma = true";
  "}";
  "result.RawByte('}')";
  "err = result.Error";
  "return err"].
Proof. vm_compute. reflexivity. Qed.
Example g_extr_External_IsZero : is_zero_text simple_get g_extr_packages g_extr_known g_extr $"External" = Some [
  "if !s.Test01.IsZero() {";
  "return false";
  "}";
  "if !s.Test02.IsZero() {";
  "return false";
  "}";
  "return true"].
Proof. vm_compute. reflexivity. Qed.
Example g_extr_External_Reset : reset_text simple_get g_extr_packages g_extr_known g_extr $"External" = Some [
  "s.Test01.Reset()";
  "s.Test02.Reset()"].
Proof. vm_compute. reflexivity. Qed.
Example g_extr_ExternalStructSlice_MarshalTo : golden_marshal simple_get g_extr_packages g_extr_known g_extr $"ExternalStructSlice" = Some [
  "if s == nil || *s == nil {";
  "result.RawString(""null"")";
  "return nil";
  "}";
  "var (";
  "err       error";
  "wantComma bool";
  ")";
  "result.RawByte('[')";
  "for _k, _v := range *s {";
  "if wantComma {";
  "result.RawByte(',')";
  "}";
  "wantComma = true";
  "_k = _k";
  "err = _v.MarshalTo(result)";
  "if err != nil {";
  "return fmt.Errorf(`can't marshal ""ExternalStructSlice"" value at position %d: %w`, _k, err)";
  "}";
  "}";
  "result.RawByte(']')";
  "err = result.Error";
  "return err"].
Proof. vm_compute. reflexivity. Qed.
Example g_extr_ExternalStructSlice_IsZero : is_zero_text simple_get g_extr_packages g_extr_known g_extr $"ExternalStructSlice" = Some [
  "return len(s) == 0"].
Proof. vm_compute. reflexivity. Qed.
Example g_extr_ExternalStructSlice_Reset : reset_text simple_get g_extr_packages g_extr_known g_extr $"ExternalStructSlice" = Some [
  "for i := range *s {";
  "(*s)[i].Reset()";
  "}";
  "*s = (*s)[:0]"].
Proof. vm_compute. reflexivity. Qed.
Example g_extr_ExternalStringSlice_MarshalTo : golden_marshal simple_get g_extr_packages g_extr_known g_extr $"ExternalStringSlice" = Some [
  "if s == nil || *s == nil {";
  "result.RawString(""null"")";
  "return nil";
  "}";
  "var (";
  "err       error";
  "wantComma bool";
  ")";
  "result.RawByte('[')";
  "for _k, _v := range *s {";
  "if wantComma {";
  "result.RawByte(',')";
  "}";
  "wantComma = true";
  "_k = _k";
  "result.String(string(_v))";
  "}";
  "result.RawByte(']')";
  "err = result.Error";
  "return err"].
Proof. vm_compute. reflexivity. Qed.
Example g_extr_ExternalStringSlice_IsZero : is_zero_text simple_get g_extr_packages g_extr_known g_extr $"ExternalStringSlice" = Some [
  "return len(s) == 0"].
Proof. vm_compute. reflexivity. Qed.
Example g_extr_ExternalStringSlice_Reset : reset_text simple_get g_extr_packages g_extr_known g_extr $"ExternalStringSlice" = Some [
  "*s = (*s)[:0]"].
Proof. vm_compute. reflexivity. Qed.
(** ** test/tests/fill/test_extr/nested.go.out.go *)
Example g_extr2_ExternalNested_MarshalTo : golden_marshal simple_get g_extr2_packages g_extr2_known g_extr2 $"ExternalNested" = Some [
  "if s == nil {";
  "result.RawString(""null"")";
  "return nil";
  "}";
  "var (";
  "err       error";
  "wantComma bool";
  ")";
  "result.RawByte('{')";
  "if !s.TestAllOfSecond.IsZero() {";
  "if wantComma {";
  "result.RawByte(',')";
  "}";
  "result.Raw(unpackObject(s.TestAllOfSecond.MarshalJSON()))";
  "wantComma = true";
  "}";
  "if !s.TestAllOfThird.IsZero() {";
  "if wantComma {";
  "result.RawByte(',')";
  "}";
  "result.Raw(unpackObject(s.TestAllOfThird.MarshalJSON()))";
  "wantComma = true";
  "}";
  "if !s.TestStr01.IsZero() {";
  "if wantComma {";
  "result.RawByte(',')";
  "}";
  "result.Raw(unpackObject(s.TestStr01.MarshalJSON()))";
  "wantComma = true";
  "}";
  "result.RawByte('}')";
  "err = result.Error";
  "return err"].
Proof. vm_compute. reflexivity. Qed.
Example g_extr2_ExternalNested_IsZero : is_zero_text simple_get g_extr2_packages g_extr2_known g_extr2 $"ExternalNested" = Some [
  "if !s.TestAllOfSecond.IsZero() {";
  "return false";
  "}";
  "if !s.TestAllOfThird.IsZero() {";
  "return false";
  "}";
  "if !s.TestStr01.IsZero() {";
  "return false";
  "}";
  "return true"].
Proof. vm_compute. reflexivity. Qed.
Example g_extr2_ExternalNested_Reset : reset_text simple_get g_extr2_packages g_extr2_known g_extr2 $"ExternalNested" = Some [
  "s.TestAllOfSecond.Reset()";
  "s.TestAllOfThird.Reset()";
  "s.TestStr01.Reset()"].
Proof. vm_compute. reflexivity. Qed.
(** ** test/tests/fill/test_inh/05_inheritance_fld.go.out.go *)
Example g_inh_TestInh01_MarshalTo : golden_marshal simple_get no_packages no_known g_inh $"TestInh01" = Some [
  "if s == nil {";
  "result.RawString(""null"")";
  "return nil";
  "}";
  "var (";
  "err       error";
  "wantComma bool";
  ")";
  "result.RawByte('{')";
  "if s.BreakFirst != 0 {";
  "if wantComma {";
  "result.RawByte(',')";
  "}";
  "result.RawString(`""breakFirst"":`)";
  "result.Int64(int64(s.BreakFirst))";
  "wantComma = true";
  "}";
  "if !s.TestInh02.IsZero() {";
  "if wantComma {";
  "result.RawByte(',')";
  "}";
  "result.RawString(`""injected"":`)";
  "if err = s.TestInh02.MarshalTo(result); err != nil {";
  "return fmt.Errorf(`can't marshal ""injected"" attribute: %w`, err)";
  "}";
  "wantComma = true";
  "}";
  "if wantComma {";
  "result.RawByte(',')";
  "}";
  "if s.Int16 != 0 {";
  "result.RawString(`""int_16"":`)";
  "result.Int64(int64(s.Int16))";
  "wantComma = true";
  "} else {";
  "result.RawString(`""int_16"":0`)";
  "wantComma = true";
  "}";
  "if wantComma {";
  "result.RawByte(',')";
  "}";
  "if s.Random != 0 {";
  "result.RawString(`""random"":`)";
  "result.Int64(int64(s.Random))";
  "wantComma = true";
  "} else {";
  "result.RawString(`""random"":0`)";
  "wantComma = true";
  "}";
  "if wantComma {";
  "result.RawByte(',')";
  "}";
  "if !s.DateBegin.IsZero() {";
  "result.RawString(`""date_begin"":`)";
  "writeTime(result, s.DateBegin, time.RFC3339Nano)";
  "wantComma = true";
  "} else {";
  "result.RawString(`""date_begin"":""0001-01-01T00:00:00Z""`)";
  "wantComma = true";
  "}";
  "if wantComma {";
  "result.RawByte(',')";
  "}";
  "result.RawString(`""nested1"":`)";
  "if err = s.Nested1.MarshalTo(result); err != nil {";
  "return fmt.Errorf(`can't marshal ""nested1"" attribute: %w`, err)";
  "}";
  "wantComma = true";
  "if wantComma {";
  "result.RawByte(',')";
  "}";
  "if s.Nested2 != nil {";
  "result.RawString(`""nested2"":`)";
  "if err = s.Nested2.MarshalTo(result); err != nil {";
  "return fmt.Errorf(`can't marshal ""nested2"" attribute: %w`, err)";
  "}";
  "wantComma = true";
  "} else {";
  "result.RawString(`""nested2"":null`)";
  "}";
  "result.RawByte('}')";
  "err = result.Error";
  "return err"].
Proof. vm_compute. reflexivity. Qed.
Example g_inh_TestInh01_IsZero : is_zero_text simple_get no_packages no_known g_inh $"TestInh01" = Some [
  "if s.BreakFirst != 0 {";
  "return false";
  "}";
  "if !s.TestInh02.IsZero() {";
  "return false";
  "}";
  "if s.Int16 != 0 {";
  "return false";
  "}";
  "if s.Random != 0 {";
  "return false";
  "}";
  "if !s.DateBegin.IsZero() {";
  "return false";
  "}";
  "if !s.Nested1.IsZero() {";
  "return false";
  "}";
  "if s.Nested2 != nil {";
  "return false";
  "}";
  "return true"].
Proof. vm_compute. reflexivity. Qed.
Example g_inh_TestInh01_Reset : reset_text simple_get no_packages no_known g_inh $"TestInh01" = Some [
  "s.BreakFirst = 0";
  "s.TestInh02.Reset()";
  "s.Int16 = 0";
  "s.Random = 0";
  "s.DateBegin = time.Time{}";
  "s.Nested1.Reset()";
  "s.Nested2 = nil"].
Proof. vm_compute. reflexivity. Qed.
Example g_inh_TestInh02_MarshalTo : golden_marshal simple_get no_packages no_known g_inh $"TestInh02" = Some [
  "if s == nil {";
  "result.RawString(""null"")";
  "return nil";
  "}";
  "var (";
  "err       error";
  "wantComma bool";
  ")";
  "result.RawByte('{')";
  "if s.Int32 != 0 {";
  "if wantComma {";
  "result.RawByte(',')";
  "}";
  "result.RawString(`""int_32"":`)";
  "result.Int64(int64(s.Int32))";
  "wantComma = true";
  "}";
  "result.RawByte('}')";
  "err = result.Error";
  "return err"].
Proof. vm_compute. reflexivity. Qed.
Example g_inh_TestInh02_IsZero : is_zero_text simple_get no_packages no_known g_inh $"TestInh02" = Some [
  "if s.Int32 != 0 {";
  "return false";
  "}";
  "return true"].
Proof. vm_compute. reflexivity. Qed.
Example g_inh_TestInh02_Reset : reset_text simple_get no_packages no_known g_inh $"TestInh02" = Some [
  "s.Int32 = 0"].
Proof. vm_compute. reflexivity. Qed.
Example g_inh_TestInh03_MarshalTo : golden_marshal simple_get no_packages no_known g_inh $"TestInh03" = Some [
  "if s == nil {";
  "result.RawString(""null"")";
  "return nil";
  "}";
  "var (";
  "err       error";
  "wantComma bool";
  ")";
  "result.RawByte('{')";
  "if wantComma {";
  "result.RawByte(',')";
  "}";
  "if s.Int16 != 0 {";
  "result.RawString(`""int_16"":`)";
  "result.Int64(int64(s.Int16))";
  "wantComma = true";
  "} else {";
  "result.RawString(`""int_16"":0`)";
  "wantComma = true";
  "}";
  "if wantComma {";
  "result.RawByte(',')";
  "}";
  "if s.Random != 0 {";
  "result.RawString(`""random"":`)";
  "result.Int64(int64(s.Random))";
  "wantComma = true";
  "} else {";
  "result.RawString(`""random"":0`)";
  "wantComma = true";
  "}";
  "result.RawByte('}')";
  "err = result.Error";
  "return err"].
Proof. vm_compute. reflexivity. Qed.
Example g_inh_TestInh03_IsZero : is_zero_text simple_get no_packages no_known g_inh $"TestInh03" = Some [
  "if s.Int16 != 0 {";
  "return false";
  "}";
  "if s.Random != 0 {";
  "return false";
  "}";
  "return true"].
Proof. vm_compute. reflexivity. Qed.
Example g_inh_TestInh03_Reset : reset_text simple_get no_packages no_known g_inh $"TestInh03" = Some [
  "s.Int16 = 0";
  "s.Random = 0"].
Proof. vm_compute. reflexivity. Qed.
Example g_inh_TestNested01_MarshalTo : golden_marshal simple_get no_packages no_known g_inh $"TestNested01" = Some [
  "if s == nil {";
  "result.RawString(""null"")";
  "return nil";
  "}";
  "var (";
  "err       error";
  "wantComma bool";
  ")";
  "result.RawByte('{')";
  "if wantComma {";
  "result.RawByte(',')";
  "}";
  "if s.Field32 != 0 {";
  "result.RawString(`""field_32"":`)";
  "result.Int64(int64(s.Field32))";
  "wantComma = true";
  "} else {";
  "result.RawString(`""field_32"":0`)";
  "wantComma = true";
  "}";
  "result.RawByte('}')";
  "err = result.Error";
  "return err"].
Proof. vm_compute. reflexivity. Qed.
Example g_inh_TestNested01_IsZero : is_zero_text simple_get no_packages no_known g_inh $"TestNested01" = Some [
  "if s.Field32 != 0 {";
  "return false";
  "}";
  "return true"].
Proof. vm_compute. reflexivity. Qed.
Example g_inh_TestNested01_Reset : reset_text simple_get no_packages no_known g_inh $"TestNested01" = Some [
  "s.Field32 = 0"].
Proof. vm_compute. reflexivity. Qed.
Example g_inh_TestNested02_MarshalTo : golden_marshal simple_get no_packages no_known g_inh $"TestNested02" = Some [
  "if s == nil {";
  "result.RawString(""null"")";
  "return nil";
  "}";
  "var (";
  "err       error";
  "wantComma bool";
  ")";
  "result.RawByte('{')";
  "if wantComma {";
  "result.RawByte(',')";
  "}";
  "if s.Field32 != 0 {";
  "result.RawString(`""field_32"":`)";
  "result.Int64(int64(s.Field32))";
  "wantComma = true";
  "} else {";
  "result.RawString(`""field_32"":0`)";
  "wantComma = true";
  "}";
  "result.RawByte('}')";
  "err = result.Error";
  "return err"].
Proof. vm_compute. reflexivity. Qed.
Example g_inh_TestNested02_IsZero : is_zero_text simple_get no_packages no_known g_inh $"TestNested02" = Some [
  "if s.Field32 != 0 {";
  "return false";
  "}";
  "return true"].
Proof. vm_compute. reflexivity. Qed.
Example g_inh_TestNested02_Reset : reset_text simple_get no_packages no_known g_inh $"TestNested02" = Some [
  "s.Field32 = 0"].
Proof. vm_compute. reflexivity. Qed.
Example g_inh_TestNested03_MarshalTo : golden_marshal simple_get no_packages no_known g_inh $"TestNested03" = Some [
  "if s == nil {";
  "result.RawString(""null"")";
  "return nil";
  "}";
  "var (";
  "err       error";
  "wantComma bool";
  ")";
  "result.RawByte('{')";
  "if wantComma {";
  "result.RawByte(',')";
  "}";
  "if s.Field32 != 0 {";
  "result.RawString(`""field_32"":`)";
  "result.Int64(int64(s.Field32))";
  "wantComma = true";
  "} else {";
  "result.RawString(`""field_32"":0`)";
  "wantComma = true";
  "}";
  "result.RawByte('}')";
  "err = result.Error";
  "return err"].
Proof. vm_compute. reflexivity. Qed.
Example g_inh_TestNested03_IsZero : is_zero_text simple_get no_packages no_known g_inh $"TestNested03" = Some [
  "if s.Field32 != 0 {";
  "return false";
  "}";
  "return true"].
Proof. vm_compute. reflexivity. Qed.
Example g_inh_TestNested03_Reset : reset_text simple_get no_packages no_known g_inh $"TestNested03" = Some [
  "s.Field32 = 0"].
Proof. vm_compute. reflexivity. Qed.
Example g_inh_TestNested04_MarshalTo : golden_marshal simple_get no_packages no_known g_inh $"TestNested04" = Some [
  "if s == nil {";
  "result.RawString(""null"")";
  "return nil";
  "}";
  "return (*TestNested03)(s).MarshalTo(result)"].
Proof. vm_compute. reflexivity. Qed.
Example g_inh_TestNested04_IsZero : is_zero_text simple_get no_packages no_known g_inh $"TestNested04" = Some [
  "return TestNested03(s).IsZero()"].
Proof. vm_compute. reflexivity. Qed.
Example g_inh_TestNested04_Reset : reset_text simple_get no_packages no_known g_inh $"TestNested04" = Some [
  "var tmp = (*TestNested03)(s)";
  "tmp.Reset()"].
Proof. vm_compute. reflexivity. Qed.
(** ** test/tests/fill/test_map/06_map_fld.go.out.go *)
Example g_map_TestMap01_MarshalTo : golden_marshal simple_get no_packages no_known g_map $"TestMap01" = Some [
  "if s == nil {";
  "result.RawString(""null"")";
  "return nil";
  "}";
  "var (";
  "err       error";
  "wantComma bool";
  ")";
  "result.RawByte('{')";
  "if wantComma {";
  "result.RawByte(',')";
  "}";
  "if s.Tags != nil {";
  "wantComma = true";
  "result.RawString(`""tags"":{`)";
  "var wantComma bool";
  "for _k, _v := range s.Tags {";
  "if wantComma {";
  "result.RawByte(',')";
  "}";
  "wantComma = true";
  "result.String(_k)";
  "result.RawByte(':')";
  "result.String(_v)";
  "}";
  "result.RawByte('}')";
  "} else {";
  "wantComma = true";
  "result.RawString(`""tags"":null`)";
  "}";
  "if s.Properties != nil {";
  "if wantComma {";
  "result.RawByte(',')";
  "}";
  "wantComma = true";
  "result.RawString(`""properties"":{`)";
  "var wantComma bool";
  "for _k, _v := range s.Properties {";
  "if wantComma {";
  "result.RawByte(',')";
  "}";
  "wantComma = true";
  "result.String(_k)";
  "result.RawByte(':')";
  "err = _v.MarshalTo(result)";
  "if err != nil {";
  "return fmt.Errorf(`can't marshal ""properties"" attribute %q: %w`, _k, err)";
  "}";
  "}";
  "result.RawByte('}')";
  "}";
  "if wantComma {";
  "result.RawByte(',')";
  "}";
  "if s.KeyTypedProperties != nil {";
  "wantComma = true";
  "result.RawString(`""key_typed_properties"":{`)";
  "var wantComma bool";
  "for _k, _v := range s.KeyTypedProperties {";
  "if wantComma {";
  "result.RawByte(',')";
  "}";
  "wantComma = true";
  "result.String(string(_k))";
  "result.RawByte(':')";
  "err = _v.MarshalTo(result)";
  "if err != nil {";
  "return fmt.Errorf(`can't marshal ""key_typed_properties"" attribute %q: %w`, _k, err)";
  "}";
  "}";
  "result.RawByte('}')";
  "} else {";
  "wantComma = true";
  "result.RawString(`""key_typed_properties"":null`)";
  "}";
  "if s.IntegerVal != nil {";
  "if wantComma {";
  "result.RawByte(',')";
  "}";
  "wantComma = true";
  "result.RawString(`""integerVal"":{`)";
  "var wantComma bool";
  "for _k, _v := range s.IntegerVal {";
  "if wantComma {";
  "result.RawByte(',')";
  "}";
  "wantComma = true";
  "result.String(string(_k))";
  "result.RawByte(':')";
  "result.Int64(int64(_v))";
  "}";
  "result.RawByte('}')";
  "}";
  "if s.FloatVal != nil {";
  "if wantComma {";
  "result.RawByte(',')";
  "}";
  "wantComma = true";
  "result.RawString(`""floatVal"":{`)";
  "var wantComma bool";
  "for _k, _v := range s.FloatVal {";
  "if wantComma {";
  "result.RawByte(',')";
  "}";
  "wantComma = true";
  "result.String(string(_k))";
  "result.RawByte(':')";
  "result.Float64(float64(_v))";
  "}";
  "result.RawByte('}')";
  "}";
  "if s.UintVal != nil {";
  "if wantComma {";
  "result.RawByte(',')";
  "}";
  "wantComma = true";
  "result.RawString(`""uintVal"":{`)";
  "var wantComma bool";
  "for _k, _v := range s.UintVal {";
  "if wantComma {";
  "result.RawByte(',')";
  "}";
  "wantComma = true";
  "result.String(string(_k))";
  "result.RawByte(':')";
  "if _v == nil {";
  "result.RawString(""null"")";
  "} else {";
  "result.Uint64(uint64(*_v))";
  "}";
  "}";
  "result.RawByte('}')";
  "}";
  "if s.BoolVal != nil {";
  "if wantComma {";
  "result.RawByte(',')";
  "}";
  "wantComma = true";
  "result.RawString(`""bool"":{`)";
  "var wantComma bool";
  "for _k, _v := range s.BoolVal {";
  "if wantComma {";
  "result.RawByte(',')";
  "}";
  "wantComma = true";
  "result.String(string(_k))";
  "result.RawByte(':')";
  "if _v {";
  "result.RawString(""true"")";
  "} else {";
  "result.RawString(""false"")";
  "}";
  "}";
  "result.RawByte('}')";
  "}";
  "if s.TypedVal != nil {";
  "if wantComma {";
  "result.RawByte(',')";
  "}";
  "wantComma = true";
  "result.RawString(`""typed-val"":{`)";
  "var wantComma bool";
  "for _k, _v := range s.TypedVal {";
  "if wantComma {";
  "result.RawByte(',')";
  "}";
  "wantComma = true";
  "result.String(string(_k))";
  "result.RawByte(':')";
  "result.Uint64(uint64(_v))";
  "}";
  "result.RawByte('}')";
  "}";
  "result.RawByte('}')";
  "err = result.Error";
  "return err"].
Proof. vm_compute. reflexivity. Qed.
Example g_map_TestMap01_IsZero : is_zero_text simple_get no_packages no_known g_map $"TestMap01" = Some [
  "if s.Tags != nil {";
  "return false";
  "}";
  "if s.Properties != nil {";
  "return false";
  "}";
  "if s.KeyTypedProperties != nil {";
  "return false";
  "}";
  "if s.IntegerVal != nil {";
  "return false";
  "}";
  "if s.FloatVal != nil {";
  "return false";
  "}";
  "if s.UintVal != nil {";
  "return false";
  "}";
  "if s.BoolVal != nil {";
  "return false";
  "}";
  "if s.TypedVal != nil {";
  "return false";
  "}";
  "return true"].
Proof. vm_compute. reflexivity. Qed.
Example g_map_TestMap01_Reset : reset_text simple_get no_packages no_known g_map $"TestMap01" = Some [
  "if len(s.Tags) > 10000 {";
  "s.Tags = nil";
  "} else {";
  "for key := range s.Tags {";
  "delete(s.Tags, key)";
  "}";
  "}";
  "if len(s.Properties) > 10000 {";
  "s.Properties = nil";
  "} else {";
  "for key := range s.Properties {";
  "delete(s.Properties, key)";
  "}";
  "}";
  "if len(s.KeyTypedProperties) > 10000 {";
  "s.KeyTypedProperties = nil";
  "} else {";
  "for key := range s.KeyTypedProperties {";
  "delete(s.KeyTypedProperties, key)";
  "}";
  "}";
  "if len(s.IntegerVal) > 10000 {";
  "s.IntegerVal = nil";
  "} else {";
  "for key := range s.IntegerVal {";
  "delete(s.IntegerVal, key)";
  "}";
  "}";
  "if len(s.FloatVal) > 10000 {";
  "s.FloatVal = nil";
  "} else {";
  "for key := range s.FloatVal {";
  "delete(s.FloatVal, key)";
  "}";
  "}";
  "if len(s.UintVal) > 10000 {";
  "s.UintVal = nil";
  "} else {";
  "for key := range s.UintVal {";
  "delete(s.UintVal, key)";
  "}";
  "}";
  "if len(s.BoolVal) > 10000 {";
  "s.BoolVal = nil";
  "} else {";
  "for key := range s.BoolVal {";
  "delete(s.BoolVal, key)";
  "}";
  "}";
  "if len(s.TypedVal) > 10000 {";
  "s.TypedVal = nil";
  "} else {";
  "for key := range s.TypedVal {";
  "delete(s.TypedVal, key)";
  "}";
  "}"].
Proof. vm_compute. reflexivity. Qed.
Example g_map_Property_MarshalTo : golden_marshal simple_get no_packages no_known g_map $"Property" = Some [
  "if s == nil {";
  "result.RawString(""null"")";
  "return nil";
  "}";
  "var (";
  "err       error";
  "wantComma bool";
  ")";
  "result.RawByte('{')";
  "if wantComma {";
  "result.RawByte(',')";
  "}";
  "if s.Name != """" {";
  "result.RawString(`""name"":`)";
  "result.String(s.Name)";
  "wantComma = true";
  "} else {";
  "result.RawString(`""name"":""""`)";
  "wantComma = true";
  "}";
  "if wantComma {";
  "result.RawByte(',')";
  "}";
  "if s.Value != """" {";
  "result.RawString(`""value"":`)";
  "result.String(s.Value)";
  "wantComma = true";
  "} else {";
  "result.RawString(`""value"":""""`)";
  "wantComma = true";
  "}";
  "result.RawByte('}')";
  "err = result.Error";
  "return err"].
Proof. vm_compute. reflexivity. Qed.
Example g_map_Property_IsZero : is_zero_text simple_get no_packages no_known g_map $"Property" = Some [
  "if s.Name != """" {";
  "return false";
  "}";
  "if s.Value != """" {";
  "return false";
  "}";
  "return true"].
Proof. vm_compute. reflexivity. Qed.
Example g_map_Property_Reset : reset_text simple_get no_packages no_known g_map $"Property" = Some [
  "s.Name = """"";
  "s.Value = """""].
Proof. vm_compute. reflexivity. Qed.
Example g_map_CampaignSites_MarshalTo : golden_marshal simple_get no_packages no_known g_map $"CampaignSites" = Some [
  "if s == nil {";
  "result.RawString(""null"")";
  "return nil";
  "}";
  "var (";
  "err       error";
  "wantComma bool";
  ")";
  "result.RawByte('{')";
  "if s.Excluded != nil {";
  "if wantComma {";
  "result.RawByte(',')";
  "}";
  "wantComma = true";
  "result.RawString(`""excluded"":{`)";
  "var wantComma bool";
  "for _k, _v := range s.Excluded {";
  "if wantComma {";
  "result.RawByte(',')";
  "}";
  "wantComma = true";
  "result.String(_k)";
  "result.RawByte(':')";
  "result.String(string(_v))";
  "}";
  "result.RawByte('}')";
  "}";
  "if s.Included != nil {";
  "if wantComma {";
  "result.RawByte(',')";
  "}";
  "wantComma = true";
  "result.RawString(`""included"":{`)";
  "var wantComma bool";
  "for _k, _v := range s.Included {";
  "if wantComma {";
  "result.RawByte(',')";
  "}";
  "wantComma = true";
  "result.String(string(_k))";
  "result.RawByte(':')";
  "result.String(_v)";
  "}";
  "result.RawByte('}')";
  "}";
  "result.RawByte('}')";
  "err = result.Error";
  "return err"].
Proof. vm_compute. reflexivity. Qed.
Example g_map_CampaignSites_IsZero : is_zero_text simple_get no_packages no_known g_map $"CampaignSites" = Some [
  "if s.Excluded != nil {";
  "return false";
  "}";
  "if s.Included != nil {";
  "return false";
  "}";
  "return true"].
Proof. vm_compute. reflexivity. Qed.
Example g_map_CampaignSites_Reset : reset_text simple_get no_packages no_known g_map $"CampaignSites" = Some [
  "if len(s.Excluded) > 10000 {";
  "s.Excluded = nil";
  "} else {";
  "for key := range s.Excluded {";
  "delete(s.Excluded, key)";
  "}";
  "}";
  "if len(s.Included) > 10000 {";
  "s.Included = nil";
  "} else {";
  "for key := range s.Included {";
  "delete(s.Included, key)";
  "}";
  "}"].
Proof. vm_compute. reflexivity. Qed.
(** ** test/tests/fill/test_nested/13_nested.go.out.go *)
Example g_nested_Root_MarshalTo : golden_marshal simple_get no_packages no_known g_nested $"Root" = Some [
  "if s == nil {";
  "result.RawString(""null"")";
  "return nil";
  "}";
  "var (";
  "err       error";
  "wantComma bool";
  ")";
  "result.RawByte('{')";
  "if wantComma {";
  "result.RawByte(',')";
  "}";
  "result.RawString(`""meta"":`)";
  "if err = s.Meta.MarshalTo(result); err != nil {";
  "return fmt.Errorf(`can't marshal ""meta"" attribute: %w`, err)";
  "}";
  "wantComma = true";
  "if wantComma {";
  "result.RawByte(',')";
  "}";
  "if s.Data != nil {";
  "wantComma = true";
  "result.RawString(`""data"":[`)";
  "var wantComma bool";
  "for _k, _v := range s.Data {";
  "if wantComma {";
  "result.RawByte(',')";
  "}";
  "wantComma = true";
  "_k = _k";
  "err = _v.MarshalTo(result)";
  "if err != nil {";
  "return fmt.Errorf(`can't marshal ""data"" item at position %d: %w`, _k, err)";
  "}";
  "}";
  "result.RawByte(']')";
  "wantComma = true";
  "} else {";
  "result.RawString(`""data"":null`)";
  "wantComma = true";
  "}";
  "result.RawByte('}')";
  "err = result.Error";
  "return err"].
Proof. vm_compute. reflexivity. Qed.
Example g_nested_Root_IsZero : is_zero_text simple_get no_packages no_known g_nested $"Root" = Some [
  "if !s.Meta.IsZero() {";
  "return false";
  "}";
  "if s.Data != nil {";
  "return false";
  "}";
  "return true"].
Proof. vm_compute. reflexivity. Qed.
Example g_nested_Root_Reset : reset_text simple_get no_packages no_known g_nested $"Root" = Some [
  "s.Meta.Reset()";
  "for i := range s.Data {";
  "s.Data[i].Reset()";
  "}";
  "s.Data = s.Data[:0]"].
Proof. vm_compute. reflexivity. Qed.
Example g_nested_Middle_MarshalTo : golden_marshal simple_get no_packages no_known g_nested $"Middle" = Some [
  "if s == nil {";
  "result.RawString(""null"")";
  "return nil";
  "}";
  "var (";
  "err       error";
  "wantComma bool";
  ")";
  "result.RawByte('{')";
  "if wantComma {";
  "result.RawByte(',')";
  "}";
  "if s.Name != """" {";
  "result.RawString(`""name"":`)";
  "result.String(string(s.Name))";
  "wantComma = true";
  "} else {";
  "result.RawString(`""name"":""""`)";
  "wantComma = true";
  "}";
  "if wantComma {";
  "result.RawByte(',')";
  "}";
  "if s.Surname != """" {";
  "result.RawString(`""surname"":`)";
  "result.String(string(s.Surname))";
  "wantComma = true";
  "} else {";
  "result.RawString(`""surname"":""""`)";
  "wantComma = true";
  "}";
  "if wantComma {";
  "result.RawByte(',')";
  "}";
  "if s.Patname != nil {";
  "result.RawString(`""patname"":`)";
  "result.String(string(*s.Patname))";
  "wantComma = true";
  "} else {";
  "result.RawString(`""patname"":null`)";
  "}";
  "if wantComma {";
  "result.RawByte(',')";
  "}";
  "if !s.DateOfBorn.IsZero() {";
  "result.RawString(`""dateOfBorn"":`)";
  "writeTime(result, s.DateOfBorn, time.RFC3339Nano)";
  "wantComma = true";
  "} else {";
  "result.RawString(`""dateOfBorn"":""0001-01-01T00:00:00Z""`)";
  "wantComma = true";
  "}";
  "if wantComma {";
  "result.RawByte(',')";
  "}";
  "if s.Tags != nil {";
  "wantComma = true";
  "result.RawString(`""tags"":{`)";
  "var wantComma bool";
  "for _k, _v := range s.Tags {";
  "if wantComma {";
  "result.RawByte(',')";
  "}";
  "wantComma = true";
  "result.String(string(_k))";
  "result.RawByte(':')";
  "result.String(string(_v))";
  "}";
  "result.RawByte('}')";
  "} else {";
  "wantComma = true";
  "result.RawString(`""tags"":null`)";
  "}";
  "result.RawByte('}')";
  "err = result.Error";
  "return err"].
Proof. vm_compute. reflexivity. Qed.
Example g_nested_Middle_IsZero : is_zero_text simple_get no_packages no_known g_nested $"Middle" = Some [
  "if s.Name != """" {";
  "return false";
  "}";
  "if s.Surname != """" {";
  "return false";
  "}";
  "if s.Patname != nil {";
  "return false";
  "}";
  "if !s.DateOfBorn.IsZero() {";
  "return false";
  "}";
  "if s.Tags != nil {";
  "return false";
  "}";
  "return true"].
Proof. vm_compute. reflexivity. Qed.
Example g_nested_Middle_Reset : reset_text simple_get no_packages no_known g_nested $"Middle" = Some [
  "s.Name = UserName("""")";
  "s.Surname = UserSurname("""")";
  "s.Patname = nil";
  "s.DateOfBorn = time.Time{}";
  "if len(s.Tags) > 10000 {";
  "s.Tags = nil";
  "} else {";
  "for key := range s.Tags {";
  "delete(s.Tags, key)";
  "}";
  "}"].
Proof. vm_compute. reflexivity. Qed.
Example g_nested_Middles_MarshalTo : golden_marshal simple_get no_packages no_known g_nested $"Middles" = Some [
  "if s == nil || *s == nil {";
  "result.RawString(""null"")";
  "return nil";
  "}";
  "var (";
  "err       error";
  "wantComma bool";
  ")";
  "result.RawByte('[')";
  "for _k, _v := range *s {";
  "if wantComma {";
  "result.RawByte(',')";
  "}";
  "wantComma = true";
  "_k = _k";
  "err = _v.MarshalTo(result)";
  "if err != nil {";
  "return fmt.Errorf(`can't marshal ""Middles"" value at position %d: %w`, _k, err)";
  "}";
  "}";
  "result.RawByte(']')";
  "err = result.Error";
  "return err"].
Proof. vm_compute. reflexivity. Qed.
Example g_nested_Middles_IsZero : is_zero_text simple_get no_packages no_known g_nested $"Middles" = Some [
  "return len(s) == 0"].
Proof. vm_compute. reflexivity. Qed.
Example g_nested_Middles_Reset : reset_text simple_get no_packages no_known g_nested $"Middles" = Some [
  "for i := range *s {";
  "(*s)[i].Reset()";
  "}";
  "*s = (*s)[:0]"].
Proof. vm_compute. reflexivity. Qed.
Example g_nested_Meta_MarshalTo : golden_marshal simple_get no_packages no_known g_nested $"Meta" = Some [
  "if s == nil {";
  "result.RawString(""null"")";
  "return nil";
  "}";
  "var (";
  "err       error";
  "wantComma bool";
  ")";
  "result.RawByte('{')";
  "if wantComma {";
  "result.RawByte(',')";
  "}";
  "if s.Count != 0 {";
  "result.RawString(`""count"":`)";
  "result.Int64(int64(s.Count))";
  "wantComma = true";
  "} else {";
  "result.RawString(`""count"":0`)";
  "wantComma = true";
  "}";
  "result.RawByte('}')";
  "err = result.Error";
  "return err"].
Proof. vm_compute. reflexivity. Qed.
Example g_nested_Meta_IsZero : is_zero_text simple_get no_packages no_known g_nested $"Meta" = Some [
  "if s.Count != 0 {";
  "return false";
  "}";
  "return true"].
Proof. vm_compute. reflexivity. Qed.
Example g_nested_Meta_Reset : reset_text simple_get no_packages no_known g_nested $"Meta" = Some [
  "s.Count = 0"].
Proof. vm_compute. reflexivity. Qed.
Example g_nested_Personal_MarshalTo : golden_marshal simple_get no_packages no_known g_nested $"Personal" = Some [
  "if s == nil {";
  "result.RawString(""null"")";
  "return nil";
  "}";
  "var (";
  "err       error";
  "wantComma bool";
  ")";
  "result.RawByte('{')";
  "if wantComma {";
  "result.RawByte(',')";
  "}";
  "if s.Name != """" {";
  "result.RawString(`""name"":`)";
  "result.String(string(s.Name))";
  "wantComma = true";
  "} else {";
  "result.RawString(`""name"":""""`)";
  "wantComma = true";
  "}";
  "if wantComma {";
  "result.RawByte(',')";
  "}";
  "if s.Surname != """" {";
  "result.RawString(`""surname"":`)";
  "result.String(string(s.Surname))";
  "wantComma = true";
  "} else {";
  "result.RawString(`""surname"":""""`)";
  "wantComma = true";
  "}";
  "if wantComma {";
  "result.RawByte(',')";
  "}";
  "if s.Patname != nil {";
  "result.RawString(`""patname"":`)";
  "result.String(string(*s.Patname))";
  "wantComma = true";
  "} else {";
  "result.RawString(`""patname"":null`)";
  "}";
  "result.RawByte('}')";
  "err = result.Error";
  "return err"].
Proof. vm_compute. reflexivity. Qed.
Example g_nested_Personal_IsZero : is_zero_text simple_get no_packages no_known g_nested $"Personal" = Some [
  "if s.Name != """" {";
  "return false";
  "}";
  "if s.Surname != """" {";
  "return false";
  "}";
  "if s.Patname != nil {";
  "return false";
  "}";
  "return true"].
Proof. vm_compute. reflexivity. Qed.
Example g_nested_Personal_Reset : reset_text simple_get no_packages no_known g_nested $"Personal" = Some [
  "s.Name = UserName("""")";
  "s.Surname = UserSurname("""")";
  "s.Patname = nil"].
Proof. vm_compute. reflexivity. Qed.
Example g_nested_Tags_MarshalTo : golden_marshal simple_get no_packages no_known g_nested $"Tags" = Some [
  "if s == nil || *s == nil {";
  "result.RawString(""null"")";
  "return nil";
  "}";
  "var (";
  "err       error";
  "wantComma bool";
  ")";
  "result.RawByte('{')";
  "for _k, _v := range *s {";
  "if wantComma {";
  "result.RawByte(',')";
  "}";
  "wantComma = true";
  "result.String(string(_k))";
  "result.RawByte(':')";
  "result.String(string(_v))";
  "}";
  "result.RawByte('}')";
  "err = result.Error";
  "return err"].
Proof. vm_compute. reflexivity. Qed.
Example g_nested_Tags_IsZero : is_zero_text simple_get no_packages no_known g_nested $"Tags" = Some [
  "return len(s) == 0"].
Proof. vm_compute. reflexivity. Qed.
Example g_nested_Tags_Reset : reset_text simple_get no_packages no_known g_nested $"Tags" = Some [
  "for k, v := range s {";
  "v = TagValue("""")";
  "s[k] = v";
  "}"].
Proof. vm_compute. reflexivity. Qed.
Example g_nested_CustomEvent_MarshalTo : golden_marshal simple_get no_packages no_known g_nested $"CustomEvent" = Some [
  "if s == nil {";
  "result.RawString(""null"")";
  "return nil";
  "}";
  "var (";
  "err       error";
  "wantComma bool";
  ")";
  "result.RawByte('{')";
  "if !s.WRRetry.IsZero() {";
  "if wantComma {";
  "result.RawByte(',')";
  "}";
  "result.Raw(unpackObject(s.WRRetry.MarshalJSON()))";
  "wantComma = true";
  "}";
  "result.RawByte('}')";
  "err = result.Error";
  "return err"].
Proof. vm_compute. reflexivity. Qed.
Example g_nested_CustomEvent_IsZero : is_zero_text simple_get no_packages no_known g_nested $"CustomEvent" = Some [
  "if !s.WRRetry.IsZero() {";
  "return false";
  "}";
  "return true"].
Proof. vm_compute. reflexivity. Qed.
Example g_nested_CustomEvent_Reset : reset_text simple_get no_packages no_known g_nested $"CustomEvent" = Some [
  "s.WRRetry.Reset()"].
Proof. vm_compute. reflexivity. Qed.
Example g_nested_WRRetry_MarshalTo : golden_marshal simple_get no_packages no_known g_nested $"WRRetry" = Some [
  "if s == nil {";
  "result.RawString(""null"")";
  "return nil";
  "}";
  "var (";
  "err       error";
  "wantComma bool";
  ")";
  "result.RawByte('{')";
  "if s.WRRetry != 0 {";
  "if wantComma {";
  "result.RawByte(',')";
  "}";
  "result.RawString(`""WR-Retry"":`)";
  "result.Int64(int64(s.WRRetry))";
  "wantComma = true";
  "}";
  "result.RawByte('}')";
  "err = result.Error";
  "return err"].
Proof. vm_compute. reflexivity. Qed.
Example g_nested_WRRetry_IsZero : is_zero_text simple_get no_packages no_known g_nested $"WRRetry" = Some [
  "if s.WRRetry != 0 {";
  "return false";
  "}";
  "return true"].
Proof. vm_compute. reflexivity. Qed.
Example g_nested_WRRetry_Reset : reset_text simple_get no_packages no_known g_nested $"WRRetry" = Some [
  "s.WRRetry = 0"].
Proof. vm_compute. reflexivity. Qed.
(** ** test/tests/fill/test_nostruct/10_nostruct.go.out.go *)
Example g_nostruct_TestMap10_MarshalTo : golden_marshal simple_get g_nostruct_packages g_nostruct_known g_nostruct $"TestMap10" = Some [
  "if s == nil || *s == nil {";
  "result.RawString(""null"")";
  "return nil";
  "}";
  "var (";
  "err       error";
  "wantComma bool";
  ")";
  "result.RawByte('{')";
  "for _k, _v := range *s {";
  "if wantComma {";
  "result.RawByte(',')";
  "}";
  "wantComma = true";
  "result.String(string(_k))";
  "result.RawByte(':')";
  "result.Int64(int64(_v))";
  "}";
  "result.RawByte('}')";
  "err = result.Error";
  "return err"].
Proof. vm_compute. reflexivity. Qed.
Example g_nostruct_TestMap10_IsZero : is_zero_text simple_get g_nostruct_packages g_nostruct_known g_nostruct $"TestMap10" = Some [
  "return len(s) == 0"].
Proof. vm_compute. reflexivity. Qed.
Example g_nostruct_TestMap10_Reset : reset_text simple_get g_nostruct_packages g_nostruct_known g_nostruct $"TestMap10" = Some [
  "for k, v := range s {";
  "v = 0";
  "s[k] = v";
  "}"].
Proof. vm_compute. reflexivity. Qed.
Example g_nostruct_TestMap11_MarshalTo : golden_marshal simple_get g_nostruct_packages g_nostruct_known g_nostruct $"TestMap11" = Some [
  "if s == nil || *s == nil {";
  "result.RawString(""null"")";
  "return nil";
  "}";
  "var (";
  "err       error";
  "wantComma bool";
  ")";
  "result.RawByte('{')";
  "for _k, _v := range *s {";
  "if wantComma {";
  "result.RawByte(',')";
  "}";
  "wantComma = true";
  "result.String(string(_k))";
  "result.RawByte(':')";
  "err = _v.MarshalTo(result)";
  "if err != nil {";
  "return fmt.Errorf(`can't marshal ""TestMap11"" attribute %q: %w`, _k, err)";
  "}";
  "}";
  "result.RawByte('}')";
  "err = result.Error";
  "return err"].
Proof. vm_compute. reflexivity. Qed.
Example g_nostruct_TestMap11_IsZero : is_zero_text simple_get g_nostruct_packages g_nostruct_known g_nostruct $"TestMap11" = Some [
  "return len(s) == 0"].
Proof. vm_compute. reflexivity. Qed.
Example g_nostruct_TestMap11_Reset : reset_text simple_get g_nostruct_packages g_nostruct_known g_nostruct $"TestMap11" = Some [
  "for k, v := range s {";
  "v.Reset()";
  "s[k] = v";
  "}"].
Proof. vm_compute. reflexivity. Qed.
Example g_nostruct_TestMap11Ref_MarshalTo : golden_marshal simple_get g_nostruct_packages g_nostruct_known g_nostruct $"TestMap11Ref" = Some [
  "if s == nil || *s == nil {";
  "result.RawString(""null"")";
  "return nil";
  "}";
  "var (";
  "err       error";
  "wantComma bool";
  ")";
  "result.RawByte('{')";
  "for _k, _v := range *s {";
  "if wantComma {";
  "result.RawByte(',')";
  "}";
  "wantComma = true";
  "result.String(string(_k))";
  "result.RawByte(':')";
  "err = _v.MarshalTo(result)";
  "if err != nil {";
  "return fmt.Errorf(`can't marshal ""TestMap11Ref"" attribute %q: %w`, _k, err)";
  "}";
  "}";
  "result.RawByte('}')";
  "err = result.Error";
  "return err"].
Proof. vm_compute. reflexivity. Qed.
Example g_nostruct_TestMap11Ref_IsZero : is_zero_text simple_get g_nostruct_packages g_nostruct_known g_nostruct $"TestMap11Ref" = Some [
  "return len(s) == 0"].
Proof. vm_compute. reflexivity. Qed.
Example g_nostruct_TestMap11Ref_Reset : reset_text simple_get g_nostruct_packages g_nostruct_known g_nostruct $"TestMap11Ref" = Some [
  "for k, v := range s {";
  "v = nil";
  "s[k] = v";
  "}"].
Proof. vm_compute. reflexivity. Qed.
Example g_nostruct_TestSlice12_MarshalTo : golden_marshal simple_get g_nostruct_packages g_nostruct_known g_nostruct $"TestSlice12" = Some [
  "if s == nil || *s == nil {";
  "result.RawString(""null"")";
  "return nil";
  "}";
  "var (";
  "err       error";
  "wantComma bool";
  ")";
  "result.RawByte('[')";
  "for _k, _v := range *s {";
  "if wantComma {";
  "result.RawByte(',')";
  "}";
  "wantComma = true";
  "_k = _k";
  "result.Int64(int64(_v))";
  "}";
  "result.RawByte(']')";
  "err = result.Error";
  "return err"].
Proof. vm_compute. reflexivity. Qed.
Example g_nostruct_TestSlice12_IsZero : is_zero_text simple_get g_nostruct_packages g_nostruct_known g_nostruct $"TestSlice12" = Some [
  "return len(s) == 0"].
Proof. vm_compute. reflexivity. Qed.
Example g_nostruct_TestSlice12_Reset : reset_text simple_get g_nostruct_packages g_nostruct_known g_nostruct $"TestSlice12" = Some [
  "*s = (*s)[:0]"].
Proof. vm_compute. reflexivity. Qed.
Example g_nostruct_TestSlice13_MarshalTo : golden_marshal simple_get g_nostruct_packages g_nostruct_known g_nostruct $"TestSlice13" = Some [
  "if s == nil || *s == nil {";
  "result.RawString(""null"")";
  "return nil";
  "}";
  "var (";
  "err       error";
  "wantComma bool";
  ")";
  "result.RawByte('[')";
  "for _k, _v := range *s {";
  "if wantComma {";
  "result.RawByte(',')";
  "}";
  "wantComma = true";
  "_k = _k";
  "err = _v.MarshalTo(result)";
  "if err != nil {";
  "return fmt.Errorf(`can't marshal ""TestSlice13"" value at position %d: %w`, _k, err)";
  "}";
  "}";
  "result.RawByte(']')";
  "err = result.Error";
  "return err"].
Proof. vm_compute. reflexivity. Qed.
Example g_nostruct_TestSlice13_IsZero : is_zero_text simple_get g_nostruct_packages g_nostruct_known g_nostruct $"TestSlice13" = Some [
  "return len(s) == 0"].
Proof. vm_compute. reflexivity. Qed.
Example g_nostruct_TestSlice13_Reset : reset_text simple_get g_nostruct_packages g_nostruct_known g_nostruct $"TestSlice13" = Some [
  "for i := range *s {";
  "(*s)[i].Reset()";
  "}";
  "*s = (*s)[:0]"].
Proof. vm_compute. reflexivity. Qed.
Example g_nostruct_TestSlice14_MarshalTo : golden_marshal simple_get g_nostruct_packages g_nostruct_known g_nostruct $"TestSlice14" = Some [
  "if s == nil {";
  "result.RawString(""null"")";
  "return nil";
  "}";
  "var (";
  "err       error";
  "wantComma bool";
  ")";
  "result.RawByte('[')";
  "for _k, _v := range *s {";
  "if wantComma {";
  "result.RawByte(',')";
  "}";
  "wantComma = true";
  "_k = _k";
  "writeTime(result, _v, time.RFC3339Nano)";
  "}";
  "result.RawByte(']')";
  "err = result.Error";
  "return err"].
Proof. vm_compute. reflexivity. Qed.
Example g_nostruct_TestSlice14_IsZero : is_zero_text simple_get g_nostruct_packages g_nostruct_known g_nostruct $"TestSlice14" = Some [
  "for _, _v := range s {";
  "if _v.IsZero() {";
  "return false";
  "}";
  "}";
  "return true"].
Proof. vm_compute. reflexivity. Qed.
Example g_nostruct_TestSlice14_Reset : reset_text simple_get g_nostruct_packages g_nostruct_known g_nostruct $"TestSlice14" = Some [
  "*s = TestSlice14{}"].
Proof. vm_compute. reflexivity. Qed.
(** ** test/tests/fill/test_num/02_numeric_fld.go.out.go *)
Example g_num_NumStruct01_MarshalTo : golden_marshal simple_get no_packages no_known g_num $"NumStruct01" = Some [
  "if s == nil {";
  "result.RawString(""null"")";
  "return nil";
  "}";
  "var (";
  "err       error";
  "wantComma bool";
  ")";
  "result.RawByte('{')";
  "if wantComma {";
  "result.RawByte(',')";
  "}";
  "if s.IntFld != 0 {";
  "result.RawString(`""int_fld"":`)";
  "result.Int64(int64(s.IntFld))";
  "wantComma = true";
  "} else {";
  "result.RawString(`""int_fld"":0`)";
  "wantComma = true";
  "}";
  "if s.IntFld8 != 0 {";
  "if wantComma {";
  "result.RawByte(',')";
  "}";
  "result.RawString(`""int_fld8"":`)";
  "result.Int64(int64(s.IntFld8))";
  "wantComma = true";
  "}";
  "if wantComma {";
  "result.RawByte(',')";
  "}";
  "if s.IntFld16 != 0 {";
  "result.RawString(`""int_fld16"":`)";
  "result.Int64(int64(s.IntFld16))";
  "wantComma = true";
  "} else {";
  "result.RawString(`""int_fld16"":0`)";
  "wantComma = true";
  "}";
  "if wantComma {";
  "result.RawByte(',')";
  "}";
  "if s.IntFld32 != 0 {";
  "result.RawString(`""int_fld32"":`)";
  "result.Int64(int64(s.IntFld32))";
  "wantComma = true";
  "} else {";
  "result.RawString(`""int_fld32"":0`)";
  "wantComma = true";
  "}";
  "if wantComma {";
  "result.RawByte(',')";
  "}";
  "if s.IntFld64 != 0 {";
  "result.RawString(`""int_fld64"":`)";
  "result.Int64(s.IntFld64)";
  "wantComma = true";
  "} else {";
  "result.RawString(`""int_fld64"":0`)";
  "wantComma = true";
  "}";
  "if wantComma {";
  "result.RawByte(',')";
  "}";
  "if s.UintFld != 0 {";
  "result.RawString(`""Uint_fld"":`)";
  "result.Uint64(uint64(s.UintFld))";
  "wantComma = true";
  "} else {";
  "result.RawString(`""Uint_fld"":0`)";
  "wantComma = true";
  "}";
  "if s.UintFld8 != 0 {";
  "if wantComma {";
  "result.RawByte(',')";
  "}";
  "result.RawString(`""Uint_fld8"":`)";
  "result.Uint64(uint64(s.UintFld8))";
  "wantComma = true";
  "}";
  "if wantComma {";
  "result.RawByte(',')";
  "}";
  "if s.UintFld16 != 0 {";
  "result.RawString(`""Uint_fld16"":`)";
  "result.Uint64(uint64(s.UintFld16))";
  "wantComma = true";
  "} else {";
  "result.RawString(`""Uint_fld16"":0`)";
  "wantComma = true";
  "}";
  "if wantComma {";
  "result.RawByte(',')";
  "}";
  "if s.UintFld32 != 0 {";
  "result.RawString(`""Uint_fld32"":`)";
  "result.Uint64(uint64(s.UintFld32))";
  "wantComma = true";
  "} else {";
  "result.RawString(`""Uint_fld32"":0`)";
  "wantComma = true";
  "}";
  "if wantComma {";
  "result.RawByte(',')";
  "}";
  "if s.UintFld64 != 0 {";
  "result.RawString(`""Uint_fld64"":`)";
  "result.Uint64(s.UintFld64)";
  "wantComma = true";
  "} else {";
  "result.RawString(`""Uint_fld64"":0`)";
  "wantComma = true";
  "}";
  "if wantComma {";
  "result.RawByte(',')";
  "}";
  "if s.FloatFld32 != 0 {";
  "result.RawString(`""fl23"":`)";
  "result.Float64(float64(s.FloatFld32))";
  "wantComma = true";
  "} else {";
  "result.RawString(`""fl23"":0`)";
  "wantComma = true";
  "}";
  "if wantComma {";
  "result.RawByte(',')";
  "}";
  "if s.FloatFld64 != 0 {";
  "result.RawString(`""fl64"":`)";
  "result.Float64(s.FloatFld64)";
  "wantComma = true";
  "} else {";
  "result.RawString(`""fl64"":0`)";
  "wantComma = true";
  "}";
  "if wantComma {";
  "result.RawByte(',')";
  "}";
  "if s.RefIntFld != nil {";
  "result.RawString(`""ref_int_fld"":`)";
  "result.Int64(int64(*s.RefIntFld))";
  "wantComma = true";
  "} else {";
  "result.RawString(`""ref_int_fld"":null`)";
  "}";
  "if s.RefIntFld8 != nil {";
  "if wantComma {";
  "result.RawByte(',')";
  "}";
  "result.RawString(`""ref_int_fld8"":`)";
  "result.Int64(int64(*s.RefIntFld8))";
  "wantComma = true";
  "}";
  "if wantComma {";
  "result.RawByte(',')";
  "}";
  "if s.RefIntFld16 != nil {";
  "result.RawString(`""ref_int_fld16"":`)";
  "result.Int64(int64(*s.RefIntFld16))";
  "wantComma = true";
  "} else {";
  "result.RawString(`""ref_int_fld16"":null`)";
  "}";
  "if wantComma {";
  "result.RawByte(',')";
  "}";
  "if s.RefIntFld32 != nil {";
  "result.RawString(`""ref_int_fld32"":`)";
  "result.Int64(int64(*s.RefIntFld32))";
  "wantComma = true";
  "} else {";
  "result.RawString(`""ref_int_fld32"":null`)";
  "}";
  "if wantComma {";
  "result.RawByte(',')";
  "}";
  "if s.RefIntFld64 != nil {";
  "result.RawString(`""ref_int_fld64"":`)";
  "result.Int64(*s.RefIntFld64)";
  "wantComma = true";
  "} else {";
  "result.RawString(`""ref_int_fld64"":null`)";
  "}";
  "if wantComma {";
  "result.RawByte(',')";
  "}";
  "if s.RefUintFld != nil {";
  "result.RawString(`""ref_Uint_fld"":`)";
  "result.Uint64(uint64(*s.RefUintFld))";
  "wantComma = true";
  "} else {";
  "result.RawString(`""ref_Uint_fld"":null`)";
  "}";
  "if s.RefUintFld8 != nil {";
  "if wantComma {";
  "result.RawByte(',')";
  "}";
  "result.RawString(`""ref_Uint_fld8"":`)";
  "result.Uint64(uint64(*s.RefUintFld8))";
  "wantComma = true";
  "}";
  "if wantComma {";
  "result.RawByte(',')";
  "}";
  "if s.RefUintFld16 != nil {";
  "result.RawString(`""ref_Uint_fld16"":`)";
  "result.Uint64(uint64(*s.RefUintFld16))";
  "wantComma = true";
  "} else {";
  "result.RawString(`""ref_Uint_fld16"":null`)";
  "}";
  "if wantComma {";
  "result.RawByte(',')";
  "}";
  "if s.RefUintFld32 != nil {";
  "result.RawString(`""ref_Uint_fld32"":`)";
  "result.Uint64(uint64(*s.RefUintFld32))";
  "wantComma = true";
  "} else {";
  "result.RawString(`""ref_Uint_fld32"":null`)";
  "}";
  "if wantComma {";
  "result.RawByte(',')";
  "}";
  "if s.RefUintFld64 != nil {";
  "result.RawString(`""ref_Uint_fld64"":`)";
  "result.Uint64(*s.RefUintFld64)";
  "wantComma = true";
  "} else {";
  "result.RawString(`""ref_Uint_fld64"":null`)";
  "}";
  "if wantComma {";
  "result.RawByte(',')";
  "}";
  "if s.RefFloatFld32 != nil {";
  "result.RawString(`""ref_fl23"":`)";
  "result.Float64(float64(*s.RefFloatFld32))";
  "wantComma = true";
  "} else {";
  "result.RawString(`""ref_fl23"":null`)";
  "}";
  "if wantComma {";
  "result.RawByte(',')";
  "}";
  "if s.RefFloatFld64 != nil {";
  "result.RawString(`""ref_fl64"":`)";
  "result.Float64(*s.RefFloatFld64)";
  "wantComma = true";
  "} else {";
  "result.RawString(`""ref_fl64"":null`)";
  "}";
  "result.RawByte('}')";
  "err = result.Error";
  "return err"].
Proof. vm_compute. reflexivity. Qed.
Example g_num_NumStruct01_IsZero : is_zero_text simple_get no_packages no_known g_num $"NumStruct01" = Some [
  "if s.IntFld != 0 {";
  "return false";
  "}";
  "if s.IntFld8 != 0 {";
  "return false";
  "}";
  "if s.IntFld16 != 0 {";
  "return false";
  "}";
  "if s.IntFld32 != 0 {";
  "return false";
  "}";
  "if s.IntFld64 != 0 {";
  "return false";
  "}";
  "if s.UintFld != 0 {";
  "return false";
  "}";
  "if s.UintFld8 != 0 {";
  "return false";
  "}";
  "if s.UintFld16 != 0 {";
  "return false";
  "}";
  "if s.UintFld32 != 0 {";
  "return false";
  "}";
  "if s.UintFld64 != 0 {";
  "return false";
  "}";
  "if s.FloatFld32 != 0 {";
  "return false";
  "}";
  "if s.FloatFld64 != 0 {";
  "return false";
  "}";
  "if s.RefIntFld != nil {";
  "return false";
  "}";
  "if s.RefIntFld8 != nil {";
  "return false";
  "}";
  "if s.RefIntFld16 != nil {";
  "return false";
  "}";
  "if s.RefIntFld32 != nil {";
  "return false";
  "}";
  "if s.RefIntFld64 != nil {";
  "return false";
  "}";
  "if s.RefUintFld != nil {";
  "return false";
  "}";
  "if s.RefUintFld8 != nil {";
  "return false";
  "}";
  "if s.RefUintFld16 != nil {";
  "return false";
  "}";
  "if s.RefUintFld32 != nil {";
  "return false";
  "}";
  "if s.RefUintFld64 != nil {";
  "return false";
  "}";
  "if s.RefFloatFld32 != nil {";
  "return false";
  "}";
  "if s.RefFloatFld64 != nil {";
  "return false";
  "}";
  "return true"].
Proof. vm_compute. reflexivity. Qed.
Example g_num_NumStruct01_Reset : reset_text simple_get no_packages no_known g_num $"NumStruct01" = Some [
  "s.IntFld = 0";
  "s.IntFld8 = 0";
  "s.IntFld16 = 0";
  "s.IntFld32 = 0";
  "s.IntFld64 = 0";
  "s.UintFld = 0";
  "s.UintFld8 = 0";
  "s.UintFld16 = 0";
  "s.UintFld32 = 0";
  "s.UintFld64 = 0";
  "s.FloatFld32 = 0";
  "s.FloatFld64 = 0";
  "s.RefIntFld = nil";
  "s.RefIntFld8 = nil";
  "s.RefIntFld16 = nil";
  "s.RefIntFld32 = nil";
  "s.RefIntFld64 = nil";
  "s.RefUintFld = nil";
  "s.RefUintFld8 = nil";
  "s.RefUintFld16 = nil";
  "s.RefUintFld32 = nil";
  "s.RefUintFld64 = nil";
  "s.RefFloatFld32 = nil";
  "s.RefFloatFld64 = nil"].
Proof. vm_compute. reflexivity. Qed.
Example g_num_NumStruct02_MarshalTo : golden_marshal simple_get no_packages no_known g_num $"NumStruct02" = Some [
  "if s == nil {";
  "result.RawString(""null"")";
  "return nil";
  "}";
  "var (";
  "err       error";
  "wantComma bool";
  ")";
  "result.RawByte('{')";
  "if wantComma {";
  "result.RawByte(',')";
  "}";
  "if s.IntFld != 0 {";
  "result.RawString(`""int_fld"":`)";
  "result.Int64(int64(s.IntFld))";
  "wantComma = true";
  "} else {";
  "result.RawString(`""int_fld"":0`)";
  "wantComma = true";
  "}";
  "if s.IntFld8 != 0 {";
  "if wantComma {";
  "result.RawByte(',')";
  "}";
  "result.RawString(`""int_fld8"":`)";
  "result.Int64(int64(s.IntFld8))";
  "wantComma = true";
  "}";
  "if wantComma {";
  "result.RawByte(',')";
  "}";
  "if s.IntFld16 != 0 {";
  "result.RawString(`""int_fld16"":`)";
  "result.Int64(int64(s.IntFld16))";
  "wantComma = true";
  "} else {";
  "result.RawString(`""int_fld16"":0`)";
  "wantComma = true";
  "}";
  "if wantComma {";
  "result.RawByte(',')";
  "}";
  "if s.IntFld32 != 0 {";
  "result.RawString(`""int_fld32"":`)";
  "result.Int64(int64(s.IntFld32))";
  "wantComma = true";
  "} else {";
  "result.RawString(`""int_fld32"":0`)";
  "wantComma = true";
  "}";
  "if wantComma {";
  "result.RawByte(',')";
  "}";
  "if s.IntFld64 != 0 {";
  "result.RawString(`""int_fld64"":`)";
  "result.Int64(s.IntFld64)";
  "wantComma = true";
  "} else {";
  "result.RawString(`""int_fld64"":0`)";
  "wantComma = true";
  "}";
  "if wantComma {";
  "result.RawByte(',')";
  "}";
  "if s.UintFld != 0 {";
  "result.RawString(`""Uint_fld"":`)";
  "result.Uint64(uint64(s.UintFld))";
  "wantComma = true";
  "} else {";
  "result.RawString(`""Uint_fld"":0`)";
  "wantComma = true";
  "}";
  "if s.UintFld8 != 0 {";
  "if wantComma {";
  "result.RawByte(',')";
  "}";
  "result.RawString(`""Uint_fld8"":`)";
  "result.Uint64(uint64(s.UintFld8))";
  "wantComma = true";
  "}";
  "if wantComma {";
  "result.RawByte(',')";
  "}";
  "if s.UintFld16 != 0 {";
  "result.RawString(`""Uint_fld16"":`)";
  "result.Uint64(uint64(s.UintFld16))";
  "wantComma = true";
  "} else {";
  "result.RawString(`""Uint_fld16"":0`)";
  "wantComma = true";
  "}";
  "if wantComma {";
  "result.RawByte(',')";
  "}";
  "if s.UintFld32 != 0 {";
  "result.RawString(`""Uint_fld32"":`)";
  "result.Uint64(uint64(s.UintFld32))";
  "wantComma = true";
  "} else {";
  "result.RawString(`""Uint_fld32"":0`)";
  "wantComma = true";
  "}";
  "if wantComma {";
  "result.RawByte(',')";
  "}";
  "if s.UintFld64 != 0 {";
  "result.RawString(`""Uint_fld64"":`)";
  "result.Uint64(s.UintFld64)";
  "wantComma = true";
  "} else {";
  "result.RawString(`""Uint_fld64"":0`)";
  "wantComma = true";
  "}";
  "if wantComma {";
  "result.RawByte(',')";
  "}";
  "if s.FloatFld32 != 0 {";
  "result.RawString(`""fl23"":`)";
  "result.Float64(float64(s.FloatFld32))";
  "wantComma = true";
  "} else {";
  "result.RawString(`""fl23"":0`)";
  "wantComma = true";
  "}";
  "if wantComma {";
  "result.RawByte(',')";
  "}";
  "if s.FloatFld64 != 0 {";
  "result.RawString(`""fl64"":`)";
  "result.Float64(s.FloatFld64)";
  "wantComma = true";
  "} else {";
  "result.RawString(`""fl64"":0`)";
  "wantComma = true";
  "}";
  "if wantComma {";
  "result.RawByte(',')";
  "}";
  "if s.RefIntFld != nil {";
  "result.RawString(`""ref_int_fld"":`)";
  "result.Int64(int64(*s.RefIntFld))";
  "wantComma = true";
  "} else {";
  "result.RawString(`""ref_int_fld"":null`)";
  "}";
  "if s.RefIntFld8 != nil {";
  "if wantComma {";
  "result.RawByte(',')";
  "}";
  "result.RawString(`""ref_int_fld8"":`)";
  "result.Int64(int64(*s.RefIntFld8))";
  "wantComma = true";
  "}";
  "if wantComma {";
  "result.RawByte(',')";
  "}";
  "if s.RefIntFld16 != nil {";
  "result.RawString(`""ref_int_fld16"":`)";
  "result.Int64(int64(*s.RefIntFld16))";
  "wantComma = true";
  "} else {";
  "result.RawString(`""ref_int_fld16"":null`)";
  "}";
  "if wantComma {";
  "result.RawByte(',')";
  "}";
  "if s.RefIntFld32 != nil {";
  "result.RawString(`""ref_int_fld32"":`)";
  "result.Int64(int64(*s.RefIntFld32))";
  "wantComma = true";
  "} else {";
  "result.RawString(`""ref_int_fld32"":null`)";
  "}";
  "if wantComma {";
  "result.RawByte(',')";
  "}";
  "if s.RefIntFld64 != nil {";
  "result.RawString(`""ref_int_fld64"":`)";
  "result.Int64(*s.RefIntFld64)";
  "wantComma = true";
  "} else {";
  "result.RawString(`""ref_int_fld64"":null`)";
  "}";
  "if wantComma {";
  "result.RawByte(',')";
  "}";
  "if s.RefUintFld != nil {";
  "result.RawString(`""ref_Uint_fld"":`)";
  "result.Uint64(uint64(*s.RefUintFld))";
  "wantComma = true";
  "} else {";
  "result.RawString(`""ref_Uint_fld"":null`)";
  "}";
  "if s.RefUintFld8 != nil {";
  "if wantComma {";
  "result.RawByte(',')";
  "}";
  "result.RawString(`""ref_Uint_fld8"":`)";
  "result.Uint64(uint64(*s.RefUintFld8))";
  "wantComma = true";
  "}";
  "if wantComma {";
  "result.RawByte(',')";
  "}";
  "if s.RefUintFld16 != nil {";
  "result.RawString(`""ref_Uint_fld16"":`)";
  "result.Uint64(uint64(*s.RefUintFld16))";
  "wantComma = true";
  "} else {";
  "result.RawString(`""ref_Uint_fld16"":null`)";
  "}";
  "if wantComma {";
  "result.RawByte(',')";
  "}";
  "if s.RefUintFld32 != nil {";
  "result.RawString(`""ref_Uint_fld32"":`)";
  "result.Uint64(uint64(*s.RefUintFld32))";
  "wantComma = true";
  "} else {";
  "result.RawString(`""ref_Uint_fld32"":null`)";
  "}";
  "if wantComma {";
  "result.RawByte(',')";
  "}";
  "if s.RefUintFld64 != nil {";
  "result.RawString(`""ref_Uint_fld64"":`)";
  "result.Uint64(*s.RefUintFld64)";
  "wantComma = true";
  "} else {";
  "result.RawString(`""ref_Uint_fld64"":null`)";
  "}";
  "if wantComma {";
  "result.RawByte(',')";
  "}";
  "if s.RefFloatFld32 != nil {";
  "result.RawString(`""ref_fl23"":`)";
  "result.Float64(float64(*s.RefFloatFld32))";
  "wantComma = true";
  "} else {";
  "result.RawString(`""ref_fl23"":null`)";
  "}";
  "if wantComma {";
  "result.RawByte(',')";
  "}";
  "if s.RefFloatFld64 != nil {";
  "result.RawString(`""ref_fl64"":`)";
  "result.Float64(*s.RefFloatFld64)";
  "wantComma = true";
  "} else {";
  "result.RawString(`""ref_fl64"":null`)";
  "}";
  "result.RawByte('}')";
  "err = result.Error";
  "return err"].
Proof. vm_compute. reflexivity. Qed.
Example g_num_NumStruct02_IsZero : is_zero_text simple_get no_packages no_known g_num $"NumStruct02" = Some [
  "if s.IntFld != 0 {";
  "return false";
  "}";
  "if s.IntFld8 != 0 {";
  "return false";
  "}";
  "if s.IntFld16 != 0 {";
  "return false";
  "}";
  "if s.IntFld32 != 0 {";
  "return false";
  "}";
  "if s.IntFld64 != 0 {";
  "return false";
  "}";
  "if s.UintFld != 0 {";
  "return false";
  "}";
  "if s.UintFld8 != 0 {";
  "return false";
  "}";
  "if s.UintFld16 != 0 {";
  "return false";
  "}";
  "if s.UintFld32 != 0 {";
  "return false";
  "}";
  "if s.UintFld64 != 0 {";
  "return false";
  "}";
  "if s.FloatFld32 != 0 {";
  "return false";
  "}";
  "if s.FloatFld64 != 0 {";
  "return false";
  "}";
  "if s.RefIntFld != nil {";
  "return false";
  "}";
  "if s.RefIntFld8 != nil {";
  "return false";
  "}";
  "if s.RefIntFld16 != nil {";
  "return false";
  "}";
  "if s.RefIntFld32 != nil {";
  "return false";
  "}";
  "if s.RefIntFld64 != nil {";
  "return false";
  "}";
  "if s.RefUintFld != nil {";
  "return false";
  "}";
  "if s.RefUintFld8 != nil {";
  "return false";
  "}";
  "if s.RefUintFld16 != nil {";
  "return false";
  "}";
  "if s.RefUintFld32 != nil {";
  "return false";
  "}";
  "if s.RefUintFld64 != nil {";
  "return false";
  "}";
  "if s.RefFloatFld32 != nil {";
  "return false";
  "}";
  "if s.RefFloatFld64 != nil {";
  "return false";
  "}";
  "return true"].
Proof. vm_compute. reflexivity. Qed.
Example g_num_NumStruct02_Reset : reset_text simple_get no_packages no_known g_num $"NumStruct02" = Some [
  "s.IntFld = 0";
  "s.IntFld8 = 0";
  "s.IntFld16 = 0";
  "s.IntFld32 = 0";
  "s.IntFld64 = 0";
  "s.UintFld = 0";
  "s.UintFld8 = 0";
  "s.UintFld16 = 0";
  "s.UintFld32 = 0";
  "s.UintFld64 = 0";
  "s.FloatFld32 = 0";
  "s.FloatFld64 = 0";
  "s.RefIntFld = nil";
  "s.RefIntFld8 = nil";
  "s.RefIntFld16 = nil";
  "s.RefIntFld32 = nil";
  "s.RefIntFld64 = nil";
  "s.RefUintFld = nil";
  "s.RefUintFld8 = nil";
  "s.RefUintFld16 = nil";
  "s.RefUintFld32 = nil";
  "s.RefUintFld64 = nil";
  "s.RefFloatFld32 = nil";
  "s.RefFloatFld64 = nil"].
Proof. vm_compute. reflexivity. Qed.
(** ** test/tests/fill/test_packages/14_test_packages.go.out.go *)
Example g_packages_Test01_MarshalTo : golden_marshal simple_get g_packages_packages g_packages_known g_packages $"Test01" = Some [
  "if s == nil {";
  "result.RawString(""null"")";
  "return nil";
  "}";
  "var (";
  "err       error";
  "wantComma bool";
  ")";
  "result.RawByte('{')";
  "if wantComma {";
  "result.RawByte(',')";
  "}";
  "if s.Field != 0 {";
  "result.RawString(`""field"":`)";
  "result.Int64(int64(s.Field))";
  "wantComma = true";
  "} else {";
  "result.RawString(`""field"":0`)";
  "wantComma = true";
  "}";
  "result.RawByte('}')";
  "err = result.Error";
  "return err"].
Proof. vm_compute. reflexivity. Qed.
Example g_packages_Test01_IsZero : is_zero_text simple_get g_packages_packages g_packages_known g_packages $"Test01" = Some [
  "if s.Field != 0 {";
  "return false";
  "}";
  "return true"].
Proof. vm_compute. reflexivity. Qed.
Example g_packages_Test01_Reset : reset_text simple_get g_packages_packages g_packages_known g_packages $"Test01" = Some [
  "s.Field = pack_a.Test(0)"].
Proof. vm_compute. reflexivity. Qed.
(** ** test/tests/fill/test_slice/03_slice_fld.go.out.go *)
Example g_slice_TestSlice01_MarshalTo : golden_marshal simple_get no_packages no_known g_slice $"TestSlice01" = Some [
  "if s == nil {";
  "result.RawString(""null"")";
  "return nil";
  "}";
  "var (";
  "err       error";
  "wantComma bool";
  ")";
  "result.RawByte('{')";
  "if wantComma {";
  "result.RawByte(',')";
  "}";
  "if s.Field != nil {";
  "wantComma = true";
  "result.RawString(`""strs"":[`)";
  "var wantComma bool";
  "for _k, _v := range s.Field {";
  "if wantComma {";
  "result.RawByte(',')";
  "}";
  "wantComma = true";
  "_k = _k";
  "result.String(_v)";
  "}";
  "result.RawByte(']')";
  "wantComma = true";
  "} else {";
  "result.RawString(`""strs"":null`)";
  "wantComma = true";
  "}";
  "if wantComma {";
  "result.RawByte(',')";
  "}";
  "if s.FieldRef != nil {";
  "wantComma = true";
  "result.RawString(`""ints"":[`)";
  "var wantComma bool";
  "for _k, _v := range s.FieldRef {";
  "if wantComma {";
  "result.RawByte(',')";
  "}";
  "wantComma = true";
  "_k = _k";
  "if _v == nil {";
  "result.RawString(""null"")";
  "} else {";
  "result.Int64(int64(*_v))";
  "}";
  "}";
  "result.RawByte(']')";
  "wantComma = true";
  "} else {";
  "result.RawString(`""ints"":null`)";
  "wantComma = true";
  "}";
  "result.RawByte('}')";
  "err = result.Error";
  "return err"].
Proof. vm_compute. reflexivity. Qed.
Example g_slice_TestSlice01_IsZero : is_zero_text simple_get no_packages no_known g_slice $"TestSlice01" = Some [
  "if s.Field != nil {";
  "return false";
  "}";
  "if s.FieldRef != nil {";
  "return false";
  "}";
  "return true"].
Proof. vm_compute. reflexivity. Qed.
Example g_slice_TestSlice01_Reset : reset_text simple_get no_packages no_known g_slice $"TestSlice01" = Some [
  "for i := range s.Field {";
  "s.Field[i] = """"";
  "}";
  "s.Field = s.Field[:0]";
  "for i := range s.FieldRef {";
  "s.FieldRef[i] = nil";
  "}";
  "s.FieldRef = s.FieldRef[:0]"].
Proof. vm_compute. reflexivity. Qed.
Example g_slice_TestSlice03_MarshalTo : golden_marshal simple_get no_packages no_known g_slice $"TestSlice03" = Some [
  "if s == nil {";
  "result.RawString(""null"")";
  "return nil";
  "}";
  "var (";
  "err       error";
  "wantComma bool";
  ")";
  "result.RawByte('{')";
  "if wantComma {";
  "result.RawByte(',')";
  "}";
  "if s.Data != 0 {";
  "result.RawString(`""data"":`)";
  "result.Int64(s.Data)";
  "wantComma = true";
  "} else {";
  "result.RawString(`""data"":0`)";
  "wantComma = true";
  "}";
  "result.RawByte('}')";
  "err = result.Error";
  "return err"].
Proof. vm_compute. reflexivity. Qed.
Example g_slice_TestSlice03_IsZero : is_zero_text simple_get no_packages no_known g_slice $"TestSlice03" = Some [
  "if s.Data != 0 {";
  "return false";
  "}";
  "return true"].
Proof. vm_compute. reflexivity. Qed.
Example g_slice_TestSlice03_Reset : reset_text simple_get no_packages no_known g_slice $"TestSlice03" = Some [
  "s.Data = 0"].
Proof. vm_compute. reflexivity. Qed.
Example g_slice_TestSlice02_MarshalTo : golden_marshal simple_get no_packages no_known g_slice $"TestSlice02" = Some [
  "if s == nil || *s == nil {";
  "result.RawString(""null"")";
  "return nil";
  "}";
  "var (";
  "err       error";
  "wantComma bool";
  ")";
  "result.RawByte('[')";
  "for _k, _v := range *s {";
  "if wantComma {";
  "result.RawByte(',')";
  "}";
  "wantComma = true";
  "_k = _k";
  "err = _v.MarshalTo(result)";
  "if err != nil {";
  "return fmt.Errorf(`can't marshal ""TestSlice02"" value at position %d: %w`, _k, err)";
  "}";
  "}";
  "result.RawByte(']')";
  "err = result.Error";
  "return err"].
Proof. vm_compute. reflexivity. Qed.
Example g_slice_TestSlice02_IsZero : is_zero_text simple_get no_packages no_known g_slice $"TestSlice02" = Some [
  "return len(s) == 0"].
Proof. vm_compute. reflexivity. Qed.
Example g_slice_TestSlice02_Reset : reset_text simple_get no_packages no_known g_slice $"TestSlice02" = Some [
  "for i := range *s {";
  "(*s)[i].Reset()";
  "}";
  "*s = (*s)[:0]"].
Proof. vm_compute. reflexivity. Qed.
Example g_slice_CampaignSites_MarshalTo : golden_marshal simple_get no_packages no_known g_slice $"CampaignSites" = Some [
  "if s == nil {";
  "result.RawString(""null"")";
  "return nil";
  "}";
  "var (";
  "err       error";
  "wantComma bool";
  ")";
  "result.RawByte('{')";
  "if s.Excluded != nil {";
  "if wantComma {";
  "result.RawByte(',')";
  "}";
  "wantComma = true";
  "result.RawString(`""excluded"":[`)";
  "var wantComma bool";
  "for _k, _v := range s.Excluded {";
  "if wantComma {";
  "result.RawByte(',')";
  "}";
  "wantComma = true";
  "_k = _k";
  "result.String(string(_v))";
  "}";
  "result.RawByte(']')";
  "wantComma = true";
  "}";
  "if wantComma {";
  "result.RawByte(',')";
  "}";
  "wantComma = true";
  "result.RawString(`""included"":[`)";
  "wantComma = false";
  "for _k, _v := range s.Included {";
  "if wantComma {";
  "result.RawByte(',')";
  "}";
  "wantComma = true";
  "_k = _k";
  "result.String(string(_v))";
  "}";
  "result.RawByte(']')";
  "wantComma = true";
  "result.RawByte('}')";
  "err = result.Error";
  "return err"].
Proof. vm_compute. reflexivity. Qed.
Example g_slice_CampaignSites_IsZero : is_zero_text simple_get no_packages no_known g_slice $"CampaignSites" = Some [
  "return false"].
Proof. vm_compute. reflexivity. Qed.
Example g_slice_CampaignSites_Reset : reset_text simple_get no_packages no_known g_slice $"CampaignSites" = Some [
  "for i := range s.Excluded {";
  "s.Excluded[i] = FieldValueString("""")";
  "}";
  "s.Excluded = s.Excluded[:0]";
  "s.Included = [5]FieldValueString{}"].
Proof. vm_compute. reflexivity. Qed.
Example g_slice_TestSliceSlice_MarshalTo : golden_marshal simple_get no_packages no_known g_slice $"TestSliceSlice" = Some [
  "if s == nil {";
  "result.RawString(""null"")";
  "return nil";
  "}";
  "var (";
  "err       error";
  "wantComma bool";
  ")";
  "result.RawByte('{')";
  "if wantComma {";
  "result.RawByte(',')";
  "}";
  "if s.FieldStr != nil {";
  "wantComma = true";
  "result.RawString(`""strs"":[`)";
  "var wantComma bool";
  "for _k, _v := range s.FieldStr {";
  "if wantComma {";
  "result.RawByte(',')";
  "}";
  "wantComma = true";
  "_k = _k";
  "result.RawByte('[')";
  "for _k1, _v1 := range _v {";
  "result.String(string(_v1))";
  "if len(_v)-1 > _k1 {";
  "result.RawByte(',')";
  "}";
  "}";
  "result.RawByte(']')";
  "}";
  "result.RawByte(']')";
  "wantComma = true";
  "} else {";
  "result.RawString(`""strs"":null`)";
  "wantComma = true";
  "}";
  "if wantComma {";
  "result.RawByte(',')";
  "}";
  "if s.FieldInt != nil {";
  "wantComma = true";
  "result.RawString(`""ints"":[`)";
  "var wantComma bool";
  "for _k, _v := range s.FieldInt {";
  "if wantComma {";
  "result.RawByte(',')";
  "}";
  "wantComma = true";
  "_k = _k";
  "result.RawByte('[')";
  "for _k1, _v1 := range _v {";
  "result.Int64(int64(_v1))";
  "if len(_v)-1 > _k1 {";
  "result.RawByte(',')";
  "}";
  "}";
  "result.RawByte(']')";
  "}";
  "result.RawByte(']')";
  "wantComma = true";
  "} else {";
  "result.RawString(`""ints"":null`)";
  "wantComma = true";
  "}";
  "result.RawByte('}')";
  "err = result.Error";
  "return err"].
Proof. vm_compute. reflexivity. Qed.
Example g_slice_TestSliceSlice_IsZero : is_zero_text simple_get no_packages no_known g_slice $"TestSliceSlice" = Some [
  "if s.FieldStr != nil {";
  "return false";
  "}";
  "if s.FieldInt != nil {";
  "return false";
  "}";
  "return true"].
Proof. vm_compute. reflexivity. Qed.
Example g_slice_TestSliceSlice_Reset : reset_text simple_get no_packages no_known g_slice $"TestSliceSlice" = Some [
  "for i := range s.FieldStr {";
  "for j := range s.FieldStr[i] {";
  "s.FieldStr[i][j] = InnerString("""")";
  "}";
  "s.FieldStr[i] = s.FieldStr[i][:0]";
  "}";
  "s.FieldStr = s.FieldStr[:0]";
  "for i := range s.FieldInt {";
  "for j := range s.FieldInt[i] {";
  "s.FieldInt[i][j] = 0";
  "}";
  "s.FieldInt[i] = s.FieldInt[i][:0]";
  "}";
  "s.FieldInt = s.FieldInt[:0]"].
Proof. vm_compute. reflexivity. Qed.
Example g_slice_Bytes_MarshalTo : golden_marshal simple_get no_packages no_known g_slice $"Bytes" = Some [
  "if s == nil {";
  "result.RawString(""null"")";
  "return nil";
  "}";
  "if *s == nil {";
  "result.RawString(""null"")";
  "return nil";
  "}";
  "buf := make([]byte, base64.StdEncoding.EncodedLen(len(*s)))";
  "base64.StdEncoding.Encode(buf, *s)";
  "result.String(string(buf))";
  "return nil"].
Proof. vm_compute. reflexivity. Qed.
Example g_slice_Bytes_IsZero : is_zero_text simple_get no_packages no_known g_slice $"Bytes" = Some [
  "return len(s) == 0"].
Proof. vm_compute. reflexivity. Qed.
Example g_slice_Bytes_Reset : reset_text simple_get no_packages no_known g_slice $"Bytes" = Some [
  "*s = (*s)[:0]"].
Proof. vm_compute. reflexivity. Qed.
Example g_slice_ArrBytes_MarshalTo : golden_marshal simple_get no_packages no_known g_slice $"ArrBytes" = Some [
  "if s == nil {";
  "result.RawString(""null"")";
  "return nil";
  "}";
  "buf := make([]byte, base64.StdEncoding.EncodedLen(len(*s)))";
  "base64.StdEncoding.Encode(buf, (*s)[:])";
  "result.String(string(buf))";
  "return nil"].
Proof. vm_compute. reflexivity. Qed.
Example g_slice_ArrBytes_IsZero : is_zero_text simple_get no_packages no_known g_slice $"ArrBytes" = Some [
  "for _, _v := range s {";
  "if _v != 0 {";
  "return false";
  "}";
  "}";
  "return true"].
Proof. vm_compute. reflexivity. Qed.
Example g_slice_ArrBytes_Reset : reset_text simple_get no_packages no_known g_slice $"ArrBytes" = Some [
  "*s = ArrBytes{}"].
Proof. vm_compute. reflexivity. Qed.
Example g_slice_BytesInStruct_MarshalTo : golden_marshal simple_get no_packages no_known g_slice $"BytesInStruct" = Some [
  "if s == nil {";
  "result.RawString(""null"")";
  "return nil";
  "}";
  "var (";
  "err       error";
  "wantComma bool";
  ")";
  "result.RawByte('{')";
  "if wantComma {";
  "result.RawByte(',')";
  "}";
  "if s.Line != """" {";
  "result.RawString(`""line"":`)";
  "result.String(s.Line)";
  "wantComma = true";
  "} else {";
  "result.RawString(`""line"":""""`)";
  "wantComma = true";
  "}";
  "if s.IfBinary != nil {";
  "if wantComma {";
  "result.RawByte(',')";
  "}";
  "wantComma = true";
  "result.RawString(`""if-binary"":`)";
  "buf := make([]byte, base64.StdEncoding.EncodedLen(len(s.IfBinary)))";
  "base64.StdEncoding.Encode(buf, s.IfBinary)";
  "result.String(string(buf))";
  "}";
  "if wantComma {";
  "result.RawByte(',')";
  "}";
  "if s.Binary != nil {";
  "wantComma = true";
  "result.RawString(`""binary"":`)";
  "buf := make([]byte, base64.StdEncoding.EncodedLen(len(s.Binary)))";
  "base64.StdEncoding.Encode(buf, s.Binary)";
  "result.String(string(buf))";
  "} else {";
  "result.RawString(`""binary"":null`)";
  "wantComma = true";
  "}";
  "if wantComma {";
  "result.RawByte(',')";
  "}";
  "if s.ArrBinary != [8]byte{} {";
  "wantComma = true";
  "result.RawString(`""arrbinary"":`)";
  "buf := make([]byte, base64.StdEncoding.EncodedLen(len(s.ArrBinary[:])))";
  "base64.StdEncoding.Encode(buf, s.ArrBinary[:])";
  "result.String(string(buf))";
  "} else {";
  "result.RawString(`""arrbinary"":null`)";
  "wantComma = true";
  "}";
  "if s.IfArrBinary != [8]byte{} {";
  "if wantComma {";
  "result.RawByte(',')";
  "}";
  "wantComma = true";
  "result.RawString(`""if-arrbinary"":`)";
  "buf := make([]byte, base64.StdEncoding.EncodedLen(len(s.IfArrBinary[:])))";
  "base64.StdEncoding.Encode(buf, s.IfArrBinary[:])";
  "result.String(string(buf))";
  "}";
  "result.RawByte('}')";
  "err = result.Error";
  "return err"].
Proof. vm_compute. reflexivity. Qed.
Example g_slice_BytesInStruct_IsZero : is_zero_text simple_get no_packages no_known g_slice $"BytesInStruct" = Some [
  "if s.Line != """" {";
  "return false";
  "}";
  "if s.IfBinary != nil {";
  "return false";
  "}";
  "if s.Binary != nil {";
  "return false";
  "}";
  "if !s.ArrBinary.IsZero() {";
  "return false";
  "}";
  "if !s.IfArrBinary.IsZero() {";
  "return false";
  "}";
  "return true"].
Proof. vm_compute. reflexivity. Qed.
Example g_slice_BytesInStruct_Reset : reset_text simple_get no_packages no_known g_slice $"BytesInStruct" = Some [
  "s.Line = """"";
  "for i := range s.IfBinary {";
  "s.IfBinary[i] = 0";
  "}";
  "s.IfBinary = s.IfBinary[:0]";
  "for i := range s.Binary {";
  "s.Binary[i] = 0";
  "}";
  "s.Binary = s.Binary[:0]";
  "s.ArrBinary = [8]byte{}";
  "s.IfArrBinary = [8]byte{}"].
Proof. vm_compute. reflexivity. Qed.
(** ** test/tests/fill/test_string/01_string_fld.go.out.go *)
Example g_string_TestStr01_MarshalTo : golden_marshal simple_get no_packages no_known g_string $"TestStr01" = Some [
  "if s == nil {";
  "result.RawString(""null"")";
  "return nil";
  "}";
  "var (";
  "err       error";
  "wantComma bool";
  ")";
  "result.RawByte('{')";
  "if wantComma {";
  "result.RawByte(',')";
  "}";
  "if s.Field != """" {";
  "result.RawString(`""field"":`)";
  "result.String(s.Field)";
  "wantComma = true";
  "} else {";
  "result.RawString(`""field"":""""`)";
  "wantComma = true";
  "}";
  "if wantComma {";
  "result.RawByte(',')";
  "}";
  "if s.FieldRef != nil {";
  "result.RawString(`""fieldRef"":`)";
  "result.String(*s.FieldRef)";
  "wantComma = true";
  "} else {";
  "result.RawString(`""fieldRef"":null`)";
  "}";
  "if wantComma {";
  "result.RawByte(',')";
  "}";
  "if s.DefRef != nil {";
  "result.RawString(`""defRef"":`)";
  "result.String(*s.DefRef)";
  "wantComma = true";
  "} else {";
  "result.RawString(`""defRef"":null`)";
  "}";
  "result.RawByte('}')";
  "err = result.Error";
  "return err"].
Proof. vm_compute. reflexivity. Qed.
Example g_string_TestStr01_IsZero : is_zero_text simple_get no_packages no_known g_string $"TestStr01" = Some [
  "if s.Field != """" {";
  "return false";
  "}";
  "if s.FieldRef != nil {";
  "return false";
  "}";
  "if s.DefRef != nil {";
  "return false";
  "}";
  "return true"].
Proof. vm_compute. reflexivity. Qed.
Example g_string_TestStr01_Reset : reset_text simple_get no_packages no_known g_string $"TestStr01" = Some [
  "s.Field = """"";
  "s.FieldRef = nil";
  "s.DefRef = nil"].
Proof. vm_compute. reflexivity. Qed.
Example g_string_TestStr02_MarshalTo : golden_marshal simple_get no_packages no_known g_string $"TestStr02" = Some [
  "if s == nil {";
  "result.RawString(""null"")";
  "return nil";
  "}";
  "var (";
  "err       error";
  "wantComma bool";
  ")";
  "result.RawByte('{')";
  "if wantComma {";
  "result.RawByte(',')";
  "}";
  "if s.Field != """" {";
  "result.RawString(`""field"":`)";
  "result.String(s.Field)";
  "wantComma = true";
  "} else {";
  "result.RawString(`""field"":""""`)";
  "wantComma = true";
  "}";
  "if wantComma {";
  "result.RawByte(',')";
  "}";
  "if s.FieldRef != nil {";
  "result.RawString(`""fieldRef"":`)";
  "result.String(*s.FieldRef)";
  "wantComma = true";
  "} else {";
  "result.RawString(`""fieldRef"":null`)";
  "}";
  "if wantComma {";
  "result.RawByte(',')";
  "}";
  "if s.String != """" {";
  "result.RawString(`""string"":`)";
  "result.String(string(s.String))";
  "wantComma = true";
  "} else {";
  "result.RawString(`""string"":""""`)";
  "wantComma = true";
  "}";
  "result.RawByte('}')";
  "err = result.Error";
  "return err"].
Proof. vm_compute. reflexivity. Qed.
Example g_string_TestStr02_IsZero : is_zero_text simple_get no_packages no_known g_string $"TestStr02" = Some [
  "if s.Field != """" {";
  "return false";
  "}";
  "if s.FieldRef != nil {";
  "return false";
  "}";
  "if s.String != """" {";
  "return false";
  "}";
  "return true"].
Proof. vm_compute. reflexivity. Qed.
Example g_string_TestStr02_Reset : reset_text simple_get no_packages no_known g_string $"TestStr02" = Some [
  "s.Field = """"";
  "s.FieldRef = nil";
  "s.String = FieldValueString("""")"].
Proof. vm_compute. reflexivity. Qed.
(** ** test/tests/fill/test_time/04_time_fld.go.out.go *)
Example g_time_TestTime01_MarshalTo : golden_marshal simple_get no_packages no_known g_time $"TestTime01" = Some [
  "if s == nil {";
  "result.RawString(""null"")";
  "return nil";
  "}";
  "var (";
  "err       error";
  "wantComma bool";
  ")";
  "result.RawByte('{')";
  "if wantComma {";
  "result.RawByte(',')";
  "}";
  "if !s.DateBegin.IsZero() {";
  "result.RawString(`""date_begin"":`)";
  "writeTime(result, s.DateBegin, time.RFC3339Nano)";
  "wantComma = true";
  "} else {";
  "result.RawString(`""date_begin"":""0001-01-01T00:00:00Z""`)";
  "wantComma = true";
  "}";
  "if wantComma {";
  "result.RawByte(',')";
  "}";
  "if !s.DateCustom.IsZero() {";
  "result.RawString(`""date_custom"":`)";
  "writeTime(result, s.DateCustom, ""2006.01.02"")";
  "wantComma = true";
  "} else {";
  "result.RawString(`""date_custom"":""0001.01.01""`)";
  "wantComma = true";
  "}";
  "if s.DateEnd != nil {";
  "if wantComma {";
  "result.RawByte(',')";
  "}";
  "result.RawString(`""date_end"":`)";
  "writeTime(result, *s.DateEnd, time.RFC3339Nano)";
  "wantComma = true";
  "}";
  "result.RawByte('}')";
  "err = result.Error";
  "return err"].
Proof. vm_compute. reflexivity. Qed.
Example g_time_TestTime01_IsZero : is_zero_text simple_get no_packages no_known g_time $"TestTime01" = Some [
  "if !s.DateBegin.IsZero() {";
  "return false";
  "}";
  "if !s.DateCustom.IsZero() {";
  "return false";
  "}";
  "if s.DateEnd != nil {";
  "return false";
  "}";
  "return true"].
Proof. vm_compute. reflexivity. Qed.
Example g_time_TestTime01_Reset : reset_text simple_get no_packages no_known g_time $"TestTime01" = Some [
  "s.DateBegin = time.Time{}";
  "s.DateCustom = time.Time{}";
  "s.DateEnd = nil"].
Proof. vm_compute. reflexivity. Qed.
Example g_time_TestTime2_MarshalTo : golden_marshal simple_get no_packages no_known g_time $"TestTime2" = Some [
  "if s == nil {";
  "result.RawString(""null"")";
  "return nil";
  "}";
  "_time, err := time.Time(*s).MarshalText()";
  "if err == nil {";
  "result.RawByte('""')";
  "result.Buffer.AppendBytes(_time)";
  "result.RawByte('""')";
  "}";
  "return err"].
Proof. vm_compute. reflexivity. Qed.
Example g_time_TestTime2_IsZero : is_zero_text simple_get no_packages no_known g_time $"TestTime2" = Some [
  "return time.Time(s).IsZero()"].
Proof. vm_compute. reflexivity. Qed.
Example g_time_TestTime2_Reset : reset_text simple_get no_packages no_known g_time $"TestTime2" = Some [
  "var tmp = (*time.Time)(s)";
  "*tmp = time.Time{}"].
Proof. vm_compute. reflexivity. Qed.
(** ** test/tests/fill/test_trans/09_transitional.go.out.go *)
Example g_trans_TestTransitional_MarshalTo : golden_marshal simple_get g_trans_packages g_trans_known g_trans $"TestTransitional" = Some [
  "if s == nil {";
  "result.RawString(""null"")";
  "return nil";
  "}";
  "return (*TestTransitionalElem)(s).MarshalTo(result)"].
Proof. vm_compute. reflexivity. Qed.
Example g_trans_TestTransitional_IsZero : is_zero_text simple_get g_trans_packages g_trans_known g_trans $"TestTransitional" = Some [
  "return TestTransitionalElem(s).IsZero()"].
Proof. vm_compute. reflexivity. Qed.
Example g_trans_TestTransitional_Reset : reset_text simple_get g_trans_packages g_trans_known g_trans $"TestTransitional" = Some [
  "var tmp = (*TestTransitionalElem)(s)";
  "tmp.Reset()"].
Proof. vm_compute. reflexivity. Qed.
Example g_trans_TestTransitionalElem_MarshalTo : golden_marshal simple_get g_trans_packages g_trans_known g_trans $"TestTransitionalElem" = Some [
  "if s == nil {";
  "result.RawString(""null"")";
  "return nil";
  "}";
  "var (";
  "err       error";
  "wantComma bool";
  ")";
  "result.RawByte('{')";
  "if wantComma {";
  "result.RawByte(',')";
  "}";
  "if s.TestField != 0 {";
  "result.RawString(`""test-field"":`)";
  "result.Int64(s.TestField)";
  "wantComma = true";
  "} else {";
  "result.RawString(`""test-field"":0`)";
  "wantComma = true";
  "}";
  "result.RawByte('}')";
  "err = result.Error";
  "return err"].
Proof. vm_compute. reflexivity. Qed.
Example g_trans_TestTransitionalElem_IsZero : is_zero_text simple_get g_trans_packages g_trans_known g_trans $"TestTransitionalElem" = Some [
  "if s.TestField != 0 {";
  "return false";
  "}";
  "return true"].
Proof. vm_compute. reflexivity. Qed.
Example g_trans_TestTransitionalElem_Reset : reset_text simple_get g_trans_packages g_trans_known g_trans $"TestTransitionalElem" = Some [
  "s.TestField = 0"].
Proof. vm_compute. reflexivity. Qed.
Example g_trans_TestExternalNested_MarshalTo : golden_marshal simple_get g_trans_packages g_trans_known g_trans $"TestExternalNested" = Some [
  "if s == nil {";
  "result.RawString(""null"")";
  "return nil";
  "}";
  "return (*test_extr.ExternalNested)(s).MarshalTo(result)"].
Proof. vm_compute. reflexivity. Qed.
Example g_trans_TestExternalNested_IsZero : is_zero_text simple_get g_trans_packages g_trans_known g_trans $"TestExternalNested" = Some [
  "return test_extr.ExternalNested(s).IsZero()"].
Proof. vm_compute. reflexivity. Qed.
Example g_trans_TestExternalNested_Reset : reset_text simple_get g_trans_packages g_trans_known g_trans $"TestExternalNested" = Some [
  "var tmp = (*test_extr.ExternalNested)(s)";
  "tmp.Reset()"].
Proof. vm_compute. reflexivity. Qed.
(** ** test/tests/fill/test_userdefined/12_user_defined.go.out.go *)
Example g_userdefined_TestUserDefined_MarshalTo : golden_marshal simple_get g_userdefined_packages g_userdefined_known g_userdefined $"TestUserDefined" = Some [
  "if s == nil {";
  "result.RawString(""null"")";
  "return nil";
  "}";
  "var (";
  "err       error";
  "wantComma bool";
  ")";
  "result.RawByte('{')";
  "if wantComma {";
  "result.RawByte(',')";
  "}";
  "if s.Int32 != 0 {";
  "result.RawString(`""f_int32"":`)";
  "result.Int64(int64(s.Int32))";
  "wantComma = true";
  "} else {";
  "result.RawString(`""f_int32"":0`)";
  "wantComma = true";
  "}";
  "if s.Int64 != 0 {";
  "if wantComma {";
  "result.RawByte(',')";
  "}";
  "result.RawString(`""f_int64"":`)";
  "result.Int64(int64(s.Int64))";
  "wantComma = true";
  "}";
  "if wantComma {";
  "result.RawByte(',')";
  "}";
  "if s.Float32 != 0 {";
  "result.RawString(`""f_float32"":`)";
  "result.Float64(float64(s.Float32))";
  "wantComma = true";
  "} else {";
  "result.RawString(`""f_float32"":0`)";
  "wantComma = true";
  "}";
  "if s.Float64 != 0 {";
  "if wantComma {";
  "result.RawByte(',')";
  "}";
  "result.RawString(`""f_float64"":`)";
  "result.Float64(float64(s.Float64))";
  "wantComma = true";
  "}";
  "if wantComma {";
  "result.RawByte(',')";
  "}";
  "if s.String != """" {";
  "result.RawString(`""f_string"":`)";
  "result.String(string(s.String))";
  "wantComma = true";
  "} else {";
  "result.RawString(`""f_string"":""""`)";
  "wantComma = true";
  "}";
  "if s.Bool {";
  "if wantComma {";
  "result.RawByte(',')";
  "}";
  "result.RawString(`""f_bool"":true`)";
  "wantComma = true";
  "}";
  "if s.RefInt32 != nil {";
  "if wantComma {";
  "result.RawByte(',')";
  "}";
  "result.RawString(`""r_int32"":`)";
  "result.Int64(int64(*s.RefInt32))";
  "wantComma = true";
  "}";
  "if s.RefInt64 != nil {";
  "if wantComma {";
  "result.RawByte(',')";
  "}";
  "result.RawString(`""r_int64"":`)";
  "result.Int64(int64(*s.RefInt64))";
  "wantComma = true";
  "}";
  "if s.RefFloat32 != nil {";
  "if wantComma {";
  "result.RawByte(',')";
  "}";
  "result.RawString(`""r_float32"":`)";
  "result.Float64(float64(*s.RefFloat32))";
  "wantComma = true";
  "}";
  "if s.RefFloat64 != nil {";
  "if wantComma {";
  "result.RawByte(',')";
  "}";
  "result.RawString(`""r_float64"":`)";
  "result.Float64(float64(*s.RefFloat64))";
  "wantComma = true";
  "}";
  "if s.RefString != nil {";
  "if wantComma {";
  "result.RawByte(',')";
  "}";
  "result.RawString(`""r_string"":`)";
  "result.String(string(*s.RefString))";
  "wantComma = true";
  "}";
  "if s.RefBool != nil {";
  "if wantComma {";
  "result.RawByte(',')";
  "}";
  "if *s.RefBool {";
  "result.RawString(`""r_bool"":true`)";
  "} else {";
  "result.RawString(`""r_bool"":false`)";
  "}";
  "wantComma = true";
  "}";
  "result.RawByte('}')";
  "err = result.Error";
  "return err"].
Proof. vm_compute. reflexivity. Qed.
Example g_userdefined_TestUserDefined_IsZero : is_zero_text simple_get g_userdefined_packages g_userdefined_known g_userdefined $"TestUserDefined" = Some [
  "if s.Int32 != 0 {";
  "return false";
  "}";
  "if s.Int64 != 0 {";
  "return false";
  "}";
  "if s.Float32 != 0 {";
  "return false";
  "}";
  "if s.Float64 != 0 {";
  "return false";
  "}";
  "if s.String != """" {";
  "return false";
  "}";
  "if s.Bool != false {";
  "return false";
  "}";
  "if s.RefInt32 != nil {";
  "return false";
  "}";
  "if s.RefInt64 != nil {";
  "return false";
  "}";
  "if s.RefFloat32 != nil {";
  "return false";
  "}";
  "if s.RefFloat64 != nil {";
  "return false";
  "}";
  "if s.RefString != nil {";
  "return false";
  "}";
  "if s.RefBool != nil {";
  "return false";
  "}";
  "return true"].
Proof. vm_compute. reflexivity. Qed.
Example g_userdefined_TestUserDefined_Reset : reset_text simple_get g_userdefined_packages g_userdefined_known g_userdefined $"TestUserDefined" = Some [
  "s.Int32 = DefinedInt32(0)";
  "s.Int64 = DefinedInt64(0)";
  "s.Float32 = DefinedFloat32(0)";
  "s.Float64 = DefinedFloat64(0)";
  "s.String = DefinedString("""")";
  "s.Bool = DefinedBool(false)";
  "s.RefInt32 = nil";
  "s.RefInt64 = nil";
  "s.RefFloat32 = nil";
  "s.RefFloat64 = nil";
  "s.RefString = nil";
  "s.RefBool = nil"].
Proof. vm_compute. reflexivity. Qed.
Example g_userdefined_TestUserDefinedRef_MarshalTo : golden_marshal simple_get g_userdefined_packages g_userdefined_known g_userdefined $"TestUserDefinedRef" = Some [
  "if s == nil {";
  "result.RawString(""null"")";
  "return nil";
  "}";
  "var (";
  "err       error";
  "wantComma bool";
  ")";
  "result.RawByte('{')";
  "if wantComma {";
  "result.RawByte(',')";
  "}";
  "if s.Int32Ref != nil {";
  "result.RawString(`""d_int32"":`)";
  "result.Int64(int64(*s.Int32Ref))";
  "wantComma = true";
  "} else {";
  "result.RawString(`""d_int32"":null`)";
  "}";
  "if s.Int64Ref != nil {";
  "if wantComma {";
  "result.RawByte(',')";
  "}";
  "result.RawString(`""d_int64"":`)";
  "result.Int64(int64(*s.Int64Ref))";
  "wantComma = true";
  "}";
  "if wantComma {";
  "result.RawByte(',')";
  "}";
  "if s.Float32Ref != nil {";
  "result.RawString(`""d_float32"":`)";
  "result.Float64(float64(*s.Float32Ref))";
  "wantComma = true";
  "} else {";
  "result.RawString(`""d_float32"":null`)";
  "}";
  "if s.Float64Ref != nil {";
  "if wantComma {";
  "result.RawByte(',')";
  "}";
  "result.RawString(`""d_float64"":`)";
  "result.Float64(float64(*s.Float64Ref))";
  "wantComma = true";
  "}";
  "if wantComma {";
  "result.RawByte(',')";
  "}";
  "if s.StringRef != nil {";
  "result.RawString(`""d_string"":`)";
  "result.String(string(*s.StringRef))";
  "wantComma = true";
  "} else {";
  "result.RawString(`""d_string"":null`)";
  "}";
  "if s.BoolRef != nil {";
  "if wantComma {";
  "result.RawByte(',')";
  "}";
  "if *s.BoolRef {";
  "result.RawString(`""d_bool"":true`)";
  "} else {";
  "result.RawString(`""d_bool"":false`)";
  "}";
  "wantComma = true";
  "}";
  "if wantComma {";
  "result.RawByte(',')";
  "}";
  "if s.RefInt32Ref != nil && *s.RefInt32Ref != nil {";
  "result.RawString(`""x_int32"":`)";
  "result.Int64(int64(**s.RefInt32Ref))";
  "wantComma = true";
  "} else {";
  "result.RawString(`""x_int32"":null`)";
  "}";
  "if s.RefInt64Ref != nil && *s.RefInt64Ref != nil {";
  "if wantComma {";
  "result.RawByte(',')";
  "}";
  "result.RawString(`""x_int64"":`)";
  "result.Int64(int64(**s.RefInt64Ref))";
  "wantComma = true";
  "}";
  "if wantComma {";
  "result.RawByte(',')";
  "}";
  "if s.RefFloat32Ref != nil && *s.RefFloat32Ref != nil {";
  "result.RawString(`""x_float32"":`)";
  "result.Float64(float64(**s.RefFloat32Ref))";
  "wantComma = true";
  "} else {";
  "result.RawString(`""x_float32"":null`)";
  "}";
  "if s.RefFloat64Ref != nil && *s.RefFloat64Ref != nil {";
  "if wantComma {";
  "result.RawByte(',')";
  "}";
  "result.RawString(`""x_float64"":`)";
  "result.Float64(float64(**s.RefFloat64Ref))";
  "wantComma = true";
  "}";
  "if wantComma {";
  "result.RawByte(',')";
  "}";
  "if s.RefStringRef != nil && *s.RefStringRef != nil {";
  "result.RawString(`""x_string"":`)";
  "result.String(string(**s.RefStringRef))";
  "wantComma = true";
  "} else {";
  "result.RawString(`""x_string"":null`)";
  "}";
  "if s.RefBoolRef != nil && *s.RefBoolRef != nil {";
  "if wantComma {";
  "result.RawByte(',')";
  "}";
  "if **s.RefBoolRef {";
  "result.RawString(`""x_bool"":true`)";
  "} else {";
  "result.RawString(`""x_bool"":false`)";
  "}";
  "wantComma = true";
  "}";
  "result.RawByte('}')";
  "err = result.Error";
  "return err"].
Proof. vm_compute. reflexivity. Qed.
Example g_userdefined_TestUserDefinedRef_IsZero : is_zero_text simple_get g_userdefined_packages g_userdefined_known g_userdefined $"TestUserDefinedRef" = Some [
  "if s.Int32Ref != nil {";
  "return false";
  "}";
  "if s.Int64Ref != nil {";
  "return false";
  "}";
  "if s.Float32Ref != nil {";
  "return false";
  "}";
  "if s.Float64Ref != nil {";
  "return false";
  "}";
  "if s.StringRef != nil {";
  "return false";
  "}";
  "if s.BoolRef != nil {";
  "return false";
  "}";
  "if s.RefInt32Ref != nil {";
  "return false";
  "}";
  "if s.RefInt64Ref != nil {";
  "return false";
  "}";
  "if s.RefFloat32Ref != nil {";
  "return false";
  "}";
  "if s.RefFloat64Ref != nil {";
  "return false";
  "}";
  "if s.RefStringRef != nil {";
  "return false";
  "}";
  "if s.RefBoolRef != nil {";
  "return false";
  "}";
  "return true"].
Proof. vm_compute. reflexivity. Qed.
Example g_userdefined_TestUserDefinedRef_Reset : reset_text simple_get g_userdefined_packages g_userdefined_known g_userdefined $"TestUserDefinedRef" = Some [
  "s.Int32Ref = DefinedRefInt32(nil)";
  "s.Int64Ref = DefinedRefInt64(nil)";
  "s.Float32Ref = DefinedRefFloat32(nil)";
  "s.Float64Ref = DefinedRefFloat64(nil)";
  "s.StringRef = DefinedRefString(nil)";
  "s.BoolRef = DefinedRefBool(nil)";
  "s.RefInt32Ref = nil";
  "s.RefInt64Ref = nil";
  "s.RefFloat32Ref = nil";
  "s.RefFloat64Ref = nil";
  "s.RefStringRef = nil";
  "s.RefBoolRef = nil"].
Proof. vm_compute. reflexivity. Qed.
Example g_userdefined_DefinedFieldAsUserDefined_MarshalTo : golden_marshal simple_get g_userdefined_packages g_userdefined_known g_userdefined $"DefinedFieldAsUserDefined" = Some [
  "if s == nil {";
  "result.RawString(""null"")";
  "return nil";
  "}";
  "var (";
  "err       error";
  "wantComma bool";
  ")";
  "result.RawByte('{')";
  "if wantComma {";
  "result.RawByte(',')";
  "}";
  "if s.Status != """" {";
  "result.RawString(`""status"":`)";
  "result.String(string(s.Status))";
  "wantComma = true";
  "} else {";
  "result.RawString(`""status"":""""`)";
  "wantComma = true";
  "}";
  "if wantComma {";
  "result.RawByte(',')";
  "}";
  "if !s.Time.IsZero() {";
  "result.RawString(`""time"":`)";
  "writeTime(result, s.Time, time.RFC3339Nano)";
  "wantComma = true";
  "} else {";
  "result.RawString(`""time"":""0001-01-01T00:00:00Z""`)";
  "wantComma = true";
  "}";
  "result.RawByte('}')";
  "err = result.Error";
  "return err"].
Proof. vm_compute. reflexivity. Qed.
Example g_userdefined_DefinedFieldAsUserDefined_IsZero : is_zero_text simple_get g_userdefined_packages g_userdefined_known g_userdefined $"DefinedFieldAsUserDefined" = Some [
  "if s.Status != """" {";
  "return false";
  "}";
  "if !s.Time.IsZero() {";
  "return false";
  "}";
  "return true"].
Proof. vm_compute. reflexivity. Qed.
Example g_userdefined_DefinedFieldAsUserDefined_Reset : reset_text simple_get g_userdefined_packages g_userdefined_known g_userdefined $"DefinedFieldAsUserDefined" = Some [
  "s.Status = userdefined.DefinedFieldAsUserDefinedStatus("""")";
  "s.Time = time.Time{}"].
Proof. vm_compute. reflexivity. Qed.
(** ** test/tests/fill/test_uuid/08_uuid_fld.go.out.go *)
Example g_uuid_TestUUID_MarshalTo : golden_marshal simple_get no_packages no_known g_uuid $"TestUUID" = Some [
  "if s == nil {";
  "result.RawString(""null"")";
  "return nil";
  "}";
  "var (";
  "err       error";
  "wantComma bool";
  ")";
  "result.RawByte('{')";
  "if wantComma {";
  "result.RawByte(',')";
  "}";
  "if buf, err := s.UUID.MarshalText(); err != nil {";
  "return newParsingError(""uuid"", err)";
  "} else {";
  "result.RawString(`""uuid"":""`)";
  "result.Buffer.AppendBytes(buf)";
  "result.RawByte('""')";
  "wantComma = true";
  "}";
  "result.RawByte('}')";
  "err = result.Error";
  "return err"].
Proof. vm_compute. reflexivity. Qed.
Example g_uuid_TestUUID_IsZero : is_zero_text simple_get no_packages no_known g_uuid $"TestUUID" = Some [
  "if s.UUID != uuid.Nil {";
  "return false";
  "}";
  "return true"].
Proof. vm_compute. reflexivity. Qed.
Example g_uuid_TestUUID_Reset : reset_text simple_get no_packages no_known g_uuid $"TestUUID" = Some [
  "s.UUID = uuid.Nil"].
Proof. vm_compute. reflexivity. Qed.
Example g_uuid_InheritUUID2_MarshalTo : golden_marshal simple_get no_packages no_known g_uuid $"InheritUUID2" = Some [
  "if s == nil {";
  "result.RawString(""null"")";
  "return nil";
  "}";
  "return (*InheritUUID)(s).MarshalTo(result)"].
Proof. vm_compute. reflexivity. Qed.
Example g_uuid_InheritUUID2_IsZero : is_zero_text simple_get no_packages no_known g_uuid $"InheritUUID2" = Some [
  "return s == InheritUUID2(uuid.Nil)"].
Proof. vm_compute. reflexivity. Qed.
Example g_uuid_InheritUUID2_Reset : reset_text simple_get no_packages no_known g_uuid $"InheritUUID2" = Some [
  "var tmp = (*InheritUUID)(s)";
  "*tmp = InheritUUID(uuid.Nil)"].
Proof. vm_compute. reflexivity. Qed.
Example g_uuid_InheritUUID_MarshalTo : golden_marshal simple_get no_packages no_known g_uuid $"InheritUUID" = Some [
  "if s == nil {";
  "result.RawString(""null"")";
  "return nil";
  "}";
  "_uuid, err := uuid.UUID(*s).MarshalText()";
  "if err == nil {";
  "result.RawByte('""')";
  "result.Buffer.AppendBytes(_uuid)";
  "result.RawByte('""')";
  "}";
  "return err"].
Proof. vm_compute. reflexivity. Qed.
Example g_uuid_InheritUUID_IsZero : is_zero_text simple_get no_packages no_known g_uuid $"InheritUUID" = Some [
  "return s == InheritUUID(uuid.Nil)"].
Proof. vm_compute. reflexivity. Qed.
Example g_uuid_InheritUUID_Reset : reset_text simple_get no_packages no_known g_uuid $"InheritUUID" = Some [
  "var tmp = (*uuid.UUID)(s)";
  "*tmp = uuid.Nil"].
Proof. vm_compute. reflexivity. Qed.
