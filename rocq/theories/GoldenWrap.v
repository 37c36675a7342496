(** UnmarshalJSON and MarshalJSON as printed, against the generated files kept in
    /repo/test/tests/fill: every such method of every type, line by line (comments and indentation
    left out). Tests of the transcription in Wrap.v, not theorems. *)
From Coq Require Import List Ascii String Bool.
From Verif Require Import Base Num Json Types Gen GoAst Block Wrap PrintGo.
Import ListNotations.
Local Open Scope list_scope.

Fixpoint wexpr_text (e : wexpr) : bytes :=
  match e with
  | WName x => x
  | WRef x => $"&" ++ x
  | WCall x m args => x ++ $"." ++ m ++ $"(" ++ commas (List.map wexpr_text args) ++ $")"
  end.
Fixpoint wstmt_text (s : wstmt) : list bytes :=
  match s with
  | WDef xs e => [commas xs ++ $" := " ++ wexpr_text e]
  | WVar x t => [$"var " ++ x ++ $" " ++ type_text t]
  | WIf init x body =>
      [$"if " ++ match init with Some (xs, e) => commas xs ++ $" := " ++ wexpr_text e ++ $"; " | None => [] end ++ x ++ $" != nil {"]
      ++ List.concat (List.map wstmt_text body) ++ [$"}"]
  | WDefer e => [$"defer " ++ wexpr_text e]
  | WReturn es => [$"return " ++ commas (List.map wexpr_text es)]
  end.
Definition wfunc_text (f : wfunc) : list bytes :=
  [$"func (" ++ wf_recv f ++ $" *" ++ wf_type f ++ $") " ++ wf_name f ++ $"(" ++ commas (List.map (fun p => fst p ++ $" " ++ type_text (snd p)) (wf_params f)) ++ $") "
   ++ match wf_results f with [t] => type_text t | ts => $"(" ++ commas (List.map type_text ts) ++ $")" end ++ $" {"]
  ++ List.concat (List.map wstmt_text (wf_body f)) ++ [$"}"].
Definition unmarshal_text (n : bytes) : list bytes :=
  ($"var " ++ fst (pool_var n) ++ $" " ++ type_text (snd (pool_var n))) :: wfunc_text (unmarshal_fn n).
Definition marshal_text (n : bytes) : list bytes := wfunc_text (marshal_fn n).

(** ** test/tests/fill/test_any/07_anyof_fld.go.out.go *)
Example w_any_TestAllOfSecond_UnmarshalJSON : unmarshal_text $"TestAllOfSecond" = [
  $"var jsonParserTestAllOfSecond fastjson.ParserPool";
  $"func (s *TestAllOfSecond) UnmarshalJSON(data []byte) error {";
  $"parser := jsonParserTestAllOfSecond.Get()";
  $"v, err := parser.ParseBytes(data)";
  $"if err != nil {";
  $"return err";
  $"}";
  $"defer jsonParserTestAllOfSecond.Put(parser)";
  $"return s.FillFromJSON(v)";
  $"}"].
Proof. vm_compute. reflexivity. Qed.
Example w_any_TestAllOfThird_UnmarshalJSON : unmarshal_text $"TestAllOfThird" = [
  $"var jsonParserTestAllOfThird fastjson.ParserPool";
  $"func (s *TestAllOfThird) UnmarshalJSON(data []byte) error {";
  $"parser := jsonParserTestAllOfThird.Get()";
  $"v, err := parser.ParseBytes(data)";
  $"if err != nil {";
  $"return err";
  $"}";
  $"defer jsonParserTestAllOfThird.Put(parser)";
  $"return s.FillFromJSON(v)";
  $"}"].
Proof. vm_compute. reflexivity. Qed.
Example w_any_TestOneOfInteger_MarshalJSON : marshal_text $"TestOneOfInteger" = [
  $"func (s *TestOneOfInteger) MarshalJSON() ([]byte, error) {";
  $"var result jwriter.Writer";
  $"if err := s.MarshalTo(&result); err != nil {";
  $"return nil, err";
  $"}";
  $"return result.BuildBytes()";
  $"}"].
Proof. vm_compute. reflexivity. Qed.
Example w_any_TestOneOfString_MarshalJSON : marshal_text $"TestOneOfString" = [
  $"func (s *TestOneOfString) MarshalJSON() ([]byte, error) {";
  $"var result jwriter.Writer";
  $"if err := s.MarshalTo(&result); err != nil {";
  $"return nil, err";
  $"}";
  $"return result.BuildBytes()";
  $"}"].
Proof. vm_compute. reflexivity. Qed.
Example w_any_TestOneOfStruct_MarshalJSON : marshal_text $"TestOneOfStruct" = [
  $"func (s *TestOneOfStruct) MarshalJSON() ([]byte, error) {";
  $"var result jwriter.Writer";
  $"if err := s.MarshalTo(&result); err != nil {";
  $"return nil, err";
  $"}";
  $"return result.BuildBytes()";
  $"}"].
Proof. vm_compute. reflexivity. Qed.
Example w_any_TestAllOfSecond_MarshalJSON : marshal_text $"TestAllOfSecond" = [
  $"func (s *TestAllOfSecond) MarshalJSON() ([]byte, error) {";
  $"var result jwriter.Writer";
  $"if err := s.MarshalTo(&result); err != nil {";
  $"return nil, err";
  $"}";
  $"return result.BuildBytes()";
  $"}"].
Proof. vm_compute. reflexivity. Qed.
Example w_any_TestAllOfThird_MarshalJSON : marshal_text $"TestAllOfThird" = [
  $"func (s *TestAllOfThird) MarshalJSON() ([]byte, error) {";
  $"var result jwriter.Writer";
  $"if err := s.MarshalTo(&result); err != nil {";
  $"return nil, err";
  $"}";
  $"return result.BuildBytes()";
  $"}"].
Proof. vm_compute. reflexivity. Qed.
(** ** test/tests/fill/test_bool/11_bool_fld.go.out.go *)
Example w_bool_TestBool01_UnmarshalJSON : unmarshal_text $"TestBool01" = [
  $"var jsonParserTestBool01 fastjson.ParserPool";
  $"func (s *TestBool01) UnmarshalJSON(data []byte) error {";
  $"parser := jsonParserTestBool01.Get()";
  $"v, err := parser.ParseBytes(data)";
  $"if err != nil {";
  $"return err";
  $"}";
  $"defer jsonParserTestBool01.Put(parser)";
  $"return s.FillFromJSON(v)";
  $"}"].
Proof. vm_compute. reflexivity. Qed.
Example w_bool_TestBool02_UnmarshalJSON : unmarshal_text $"TestBool02" = [
  $"var jsonParserTestBool02 fastjson.ParserPool";
  $"func (s *TestBool02) UnmarshalJSON(data []byte) error {";
  $"parser := jsonParserTestBool02.Get()";
  $"v, err := parser.ParseBytes(data)";
  $"if err != nil {";
  $"return err";
  $"}";
  $"defer jsonParserTestBool02.Put(parser)";
  $"return s.FillFromJSON(v)";
  $"}"].
Proof. vm_compute. reflexivity. Qed.
Example w_bool_TestInhBool_UnmarshalJSON : unmarshal_text $"TestInhBool" = [
  $"var jsonParserTestInhBool fastjson.ParserPool";
  $"func (s *TestInhBool) UnmarshalJSON(data []byte) error {";
  $"parser := jsonParserTestInhBool.Get()";
  $"v, err := parser.ParseBytes(data)";
  $"if err != nil {";
  $"return err";
  $"}";
  $"defer jsonParserTestInhBool.Put(parser)";
  $"return s.FillFromJSON(v)";
  $"}"].
Proof. vm_compute. reflexivity. Qed.
Example w_bool_TestBool03_UnmarshalJSON : unmarshal_text $"TestBool03" = [
  $"var jsonParserTestBool03 fastjson.ParserPool";
  $"func (s *TestBool03) UnmarshalJSON(data []byte) error {";
  $"parser := jsonParserTestBool03.Get()";
  $"v, err := parser.ParseBytes(data)";
  $"if err != nil {";
  $"return err";
  $"}";
  $"defer jsonParserTestBool03.Put(parser)";
  $"return s.FillFromJSON(v)";
  $"}"].
Proof. vm_compute. reflexivity. Qed.
Example w_bool_TestBool04_UnmarshalJSON : unmarshal_text $"TestBool04" = [
  $"var jsonParserTestBool04 fastjson.ParserPool";
  $"func (s *TestBool04) UnmarshalJSON(data []byte) error {";
  $"parser := jsonParserTestBool04.Get()";
  $"v, err := parser.ParseBytes(data)";
  $"if err != nil {";
  $"return err";
  $"}";
  $"defer jsonParserTestBool04.Put(parser)";
  $"return s.FillFromJSON(v)";
  $"}"].
Proof. vm_compute. reflexivity. Qed.
Example w_bool_TestBool05_UnmarshalJSON : unmarshal_text $"TestBool05" = [
  $"var jsonParserTestBool05 fastjson.ParserPool";
  $"func (s *TestBool05) UnmarshalJSON(data []byte) error {";
  $"parser := jsonParserTestBool05.Get()";
  $"v, err := parser.ParseBytes(data)";
  $"if err != nil {";
  $"return err";
  $"}";
  $"defer jsonParserTestBool05.Put(parser)";
  $"return s.FillFromJSON(v)";
  $"}"].
Proof. vm_compute. reflexivity. Qed.
Example w_bool_TestBool01_MarshalJSON : marshal_text $"TestBool01" = [
  $"func (s *TestBool01) MarshalJSON() ([]byte, error) {";
  $"var result jwriter.Writer";
  $"if err := s.MarshalTo(&result); err != nil {";
  $"return nil, err";
  $"}";
  $"return result.BuildBytes()";
  $"}"].
Proof. vm_compute. reflexivity. Qed.
Example w_bool_TestBool02_MarshalJSON : marshal_text $"TestBool02" = [
  $"func (s *TestBool02) MarshalJSON() ([]byte, error) {";
  $"var result jwriter.Writer";
  $"if err := s.MarshalTo(&result); err != nil {";
  $"return nil, err";
  $"}";
  $"return result.BuildBytes()";
  $"}"].
Proof. vm_compute. reflexivity. Qed.
Example w_bool_TestInhBool_MarshalJSON : marshal_text $"TestInhBool" = [
  $"func (s *TestInhBool) MarshalJSON() ([]byte, error) {";
  $"var result jwriter.Writer";
  $"if err := s.MarshalTo(&result); err != nil {";
  $"return nil, err";
  $"}";
  $"return result.BuildBytes()";
  $"}"].
Proof. vm_compute. reflexivity. Qed.
Example w_bool_TestBool03_MarshalJSON : marshal_text $"TestBool03" = [
  $"func (s *TestBool03) MarshalJSON() ([]byte, error) {";
  $"var result jwriter.Writer";
  $"if err := s.MarshalTo(&result); err != nil {";
  $"return nil, err";
  $"}";
  $"return result.BuildBytes()";
  $"}"].
Proof. vm_compute. reflexivity. Qed.
Example w_bool_TestBool04_MarshalJSON : marshal_text $"TestBool04" = [
  $"func (s *TestBool04) MarshalJSON() ([]byte, error) {";
  $"var result jwriter.Writer";
  $"if err := s.MarshalTo(&result); err != nil {";
  $"return nil, err";
  $"}";
  $"return result.BuildBytes()";
  $"}"].
Proof. vm_compute. reflexivity. Qed.
Example w_bool_TestBool05_MarshalJSON : marshal_text $"TestBool05" = [
  $"func (s *TestBool05) MarshalJSON() ([]byte, error) {";
  $"var result jwriter.Writer";
  $"if err := s.MarshalTo(&result); err != nil {";
  $"return nil, err";
  $"}";
  $"return result.BuildBytes()";
  $"}"].
Proof. vm_compute. reflexivity. Qed.
(** ** test/tests/fill/test_extr/extr.go.out.go *)
Example w_extr_External_UnmarshalJSON : unmarshal_text $"External" = [
  $"var jsonParserExternal fastjson.ParserPool";
  $"func (s *External) UnmarshalJSON(data []byte) error {";
  $"parser := jsonParserExternal.Get()";
  $"v, err := parser.ParseBytes(data)";
  $"if err != nil {";
  $"return err";
  $"}";
  $"defer jsonParserExternal.Put(parser)";
  $"return s.FillFromJSON(v)";
  $"}"].
Proof. vm_compute. reflexivity. Qed.
Example w_extr_ExternalStructSlice_UnmarshalJSON : unmarshal_text $"ExternalStructSlice" = [
  $"var jsonParserExternalStructSlice fastjson.ParserPool";
  $"func (s *ExternalStructSlice) UnmarshalJSON(data []byte) error {";
  $"parser := jsonParserExternalStructSlice.Get()";
  $"v, err := parser.ParseBytes(data)";
  $"if err != nil {";
  $"return err";
  $"}";
  $"defer jsonParserExternalStructSlice.Put(parser)";
  $"return s.FillFromJSON(v)";
  $"}"].
Proof. vm_compute. reflexivity. Qed.
Example w_extr_ExternalStringSlice_UnmarshalJSON : unmarshal_text $"ExternalStringSlice" = [
  $"var jsonParserExternalStringSlice fastjson.ParserPool";
  $"func (s *ExternalStringSlice) UnmarshalJSON(data []byte) error {";
  $"parser := jsonParserExternalStringSlice.Get()";
  $"v, err := parser.ParseBytes(data)";
  $"if err != nil {";
  $"return err";
  $"}";
  $"defer jsonParserExternalStringSlice.Put(parser)";
  $"return s.FillFromJSON(v)";
  $"}"].
Proof. vm_compute. reflexivity. Qed.
Example w_extr_External_MarshalJSON : marshal_text $"External" = [
  $"func (s *External) MarshalJSON() ([]byte, error) {";
  $"var result jwriter.Writer";
  $"if err := s.MarshalTo(&result); err != nil {";
  $"return nil, err";
  $"}";
  $"return result.BuildBytes()";
  $"}"].
Proof. vm_compute. reflexivity. Qed.
Example w_extr_ExternalStructSlice_MarshalJSON : marshal_text $"ExternalStructSlice" = [
  $"func (s *ExternalStructSlice) MarshalJSON() ([]byte, error) {";
  $"var result jwriter.Writer";
  $"if err := s.MarshalTo(&result); err != nil {";
  $"return nil, err";
  $"}";
  $"return result.BuildBytes()";
  $"}"].
Proof. vm_compute. reflexivity. Qed.
Example w_extr_ExternalStringSlice_MarshalJSON : marshal_text $"ExternalStringSlice" = [
  $"func (s *ExternalStringSlice) MarshalJSON() ([]byte, error) {";
  $"var result jwriter.Writer";
  $"if err := s.MarshalTo(&result); err != nil {";
  $"return nil, err";
  $"}";
  $"return result.BuildBytes()";
  $"}"].
Proof. vm_compute. reflexivity. Qed.
(** ** test/tests/fill/test_extr/nested.go.out.go *)
Example w_extr_ExternalNested_UnmarshalJSON : unmarshal_text $"ExternalNested" = [
  $"var jsonParserExternalNested fastjson.ParserPool";
  $"func (s *ExternalNested) UnmarshalJSON(data []byte) error {";
  $"parser := jsonParserExternalNested.Get()";
  $"v, err := parser.ParseBytes(data)";
  $"if err != nil {";
  $"return err";
  $"}";
  $"defer jsonParserExternalNested.Put(parser)";
  $"return s.FillFromJSON(v)";
  $"}"].
Proof. vm_compute. reflexivity. Qed.
Example w_extr_ExternalNested_MarshalJSON : marshal_text $"ExternalNested" = [
  $"func (s *ExternalNested) MarshalJSON() ([]byte, error) {";
  $"var result jwriter.Writer";
  $"if err := s.MarshalTo(&result); err != nil {";
  $"return nil, err";
  $"}";
  $"return result.BuildBytes()";
  $"}"].
Proof. vm_compute. reflexivity. Qed.
(** ** test/tests/fill/test_inh/05_inheritance_fld.go.out.go *)
Example w_inh_TestInh01_UnmarshalJSON : unmarshal_text $"TestInh01" = [
  $"var jsonParserTestInh01 fastjson.ParserPool";
  $"func (s *TestInh01) UnmarshalJSON(data []byte) error {";
  $"parser := jsonParserTestInh01.Get()";
  $"v, err := parser.ParseBytes(data)";
  $"if err != nil {";
  $"return err";
  $"}";
  $"defer jsonParserTestInh01.Put(parser)";
  $"return s.FillFromJSON(v)";
  $"}"].
Proof. vm_compute. reflexivity. Qed.
Example w_inh_TestInh02_UnmarshalJSON : unmarshal_text $"TestInh02" = [
  $"var jsonParserTestInh02 fastjson.ParserPool";
  $"func (s *TestInh02) UnmarshalJSON(data []byte) error {";
  $"parser := jsonParserTestInh02.Get()";
  $"v, err := parser.ParseBytes(data)";
  $"if err != nil {";
  $"return err";
  $"}";
  $"defer jsonParserTestInh02.Put(parser)";
  $"return s.FillFromJSON(v)";
  $"}"].
Proof. vm_compute. reflexivity. Qed.
Example w_inh_TestInh03_UnmarshalJSON : unmarshal_text $"TestInh03" = [
  $"var jsonParserTestInh03 fastjson.ParserPool";
  $"func (s *TestInh03) UnmarshalJSON(data []byte) error {";
  $"parser := jsonParserTestInh03.Get()";
  $"v, err := parser.ParseBytes(data)";
  $"if err != nil {";
  $"return err";
  $"}";
  $"defer jsonParserTestInh03.Put(parser)";
  $"return s.FillFromJSON(v)";
  $"}"].
Proof. vm_compute. reflexivity. Qed.
Example w_inh_TestNested01_UnmarshalJSON : unmarshal_text $"TestNested01" = [
  $"var jsonParserTestNested01 fastjson.ParserPool";
  $"func (s *TestNested01) UnmarshalJSON(data []byte) error {";
  $"parser := jsonParserTestNested01.Get()";
  $"v, err := parser.ParseBytes(data)";
  $"if err != nil {";
  $"return err";
  $"}";
  $"defer jsonParserTestNested01.Put(parser)";
  $"return s.FillFromJSON(v)";
  $"}"].
Proof. vm_compute. reflexivity. Qed.
Example w_inh_TestNested02_UnmarshalJSON : unmarshal_text $"TestNested02" = [
  $"var jsonParserTestNested02 fastjson.ParserPool";
  $"func (s *TestNested02) UnmarshalJSON(data []byte) error {";
  $"parser := jsonParserTestNested02.Get()";
  $"v, err := parser.ParseBytes(data)";
  $"if err != nil {";
  $"return err";
  $"}";
  $"defer jsonParserTestNested02.Put(parser)";
  $"return s.FillFromJSON(v)";
  $"}"].
Proof. vm_compute. reflexivity. Qed.
Example w_inh_TestNested03_UnmarshalJSON : unmarshal_text $"TestNested03" = [
  $"var jsonParserTestNested03 fastjson.ParserPool";
  $"func (s *TestNested03) UnmarshalJSON(data []byte) error {";
  $"parser := jsonParserTestNested03.Get()";
  $"v, err := parser.ParseBytes(data)";
  $"if err != nil {";
  $"return err";
  $"}";
  $"defer jsonParserTestNested03.Put(parser)";
  $"return s.FillFromJSON(v)";
  $"}"].
Proof. vm_compute. reflexivity. Qed.
Example w_inh_TestNested04_UnmarshalJSON : unmarshal_text $"TestNested04" = [
  $"var jsonParserTestNested04 fastjson.ParserPool";
  $"func (s *TestNested04) UnmarshalJSON(data []byte) error {";
  $"parser := jsonParserTestNested04.Get()";
  $"v, err := parser.ParseBytes(data)";
  $"if err != nil {";
  $"return err";
  $"}";
  $"defer jsonParserTestNested04.Put(parser)";
  $"return s.FillFromJSON(v)";
  $"}"].
Proof. vm_compute. reflexivity. Qed.
Example w_inh_TestInh01_MarshalJSON : marshal_text $"TestInh01" = [
  $"func (s *TestInh01) MarshalJSON() ([]byte, error) {";
  $"var result jwriter.Writer";
  $"if err := s.MarshalTo(&result); err != nil {";
  $"return nil, err";
  $"}";
  $"return result.BuildBytes()";
  $"}"].
Proof. vm_compute. reflexivity. Qed.
Example w_inh_TestInh02_MarshalJSON : marshal_text $"TestInh02" = [
  $"func (s *TestInh02) MarshalJSON() ([]byte, error) {";
  $"var result jwriter.Writer";
  $"if err := s.MarshalTo(&result); err != nil {";
  $"return nil, err";
  $"}";
  $"return result.BuildBytes()";
  $"}"].
Proof. vm_compute. reflexivity. Qed.
Example w_inh_TestInh03_MarshalJSON : marshal_text $"TestInh03" = [
  $"func (s *TestInh03) MarshalJSON() ([]byte, error) {";
  $"var result jwriter.Writer";
  $"if err := s.MarshalTo(&result); err != nil {";
  $"return nil, err";
  $"}";
  $"return result.BuildBytes()";
  $"}"].
Proof. vm_compute. reflexivity. Qed.
Example w_inh_TestNested01_MarshalJSON : marshal_text $"TestNested01" = [
  $"func (s *TestNested01) MarshalJSON() ([]byte, error) {";
  $"var result jwriter.Writer";
  $"if err := s.MarshalTo(&result); err != nil {";
  $"return nil, err";
  $"}";
  $"return result.BuildBytes()";
  $"}"].
Proof. vm_compute. reflexivity. Qed.
Example w_inh_TestNested02_MarshalJSON : marshal_text $"TestNested02" = [
  $"func (s *TestNested02) MarshalJSON() ([]byte, error) {";
  $"var result jwriter.Writer";
  $"if err := s.MarshalTo(&result); err != nil {";
  $"return nil, err";
  $"}";
  $"return result.BuildBytes()";
  $"}"].
Proof. vm_compute. reflexivity. Qed.
Example w_inh_TestNested03_MarshalJSON : marshal_text $"TestNested03" = [
  $"func (s *TestNested03) MarshalJSON() ([]byte, error) {";
  $"var result jwriter.Writer";
  $"if err := s.MarshalTo(&result); err != nil {";
  $"return nil, err";
  $"}";
  $"return result.BuildBytes()";
  $"}"].
Proof. vm_compute. reflexivity. Qed.
Example w_inh_TestNested04_MarshalJSON : marshal_text $"TestNested04" = [
  $"func (s *TestNested04) MarshalJSON() ([]byte, error) {";
  $"var result jwriter.Writer";
  $"if err := s.MarshalTo(&result); err != nil {";
  $"return nil, err";
  $"}";
  $"return result.BuildBytes()";
  $"}"].
Proof. vm_compute. reflexivity. Qed.
(** ** test/tests/fill/test_map/06_map_fld.go.out.go *)
Example w_map_TestMap01_UnmarshalJSON : unmarshal_text $"TestMap01" = [
  $"var jsonParserTestMap01 fastjson.ParserPool";
  $"func (s *TestMap01) UnmarshalJSON(data []byte) error {";
  $"parser := jsonParserTestMap01.Get()";
  $"v, err := parser.ParseBytes(data)";
  $"if err != nil {";
  $"return err";
  $"}";
  $"defer jsonParserTestMap01.Put(parser)";
  $"return s.FillFromJSON(v)";
  $"}"].
Proof. vm_compute. reflexivity. Qed.
Example w_map_Property_UnmarshalJSON : unmarshal_text $"Property" = [
  $"var jsonParserProperty fastjson.ParserPool";
  $"func (s *Property) UnmarshalJSON(data []byte) error {";
  $"parser := jsonParserProperty.Get()";
  $"v, err := parser.ParseBytes(data)";
  $"if err != nil {";
  $"return err";
  $"}";
  $"defer jsonParserProperty.Put(parser)";
  $"return s.FillFromJSON(v)";
  $"}"].
Proof. vm_compute. reflexivity. Qed.
Example w_map_CampaignSites_UnmarshalJSON : unmarshal_text $"CampaignSites" = [
  $"var jsonParserCampaignSites fastjson.ParserPool";
  $"func (s *CampaignSites) UnmarshalJSON(data []byte) error {";
  $"parser := jsonParserCampaignSites.Get()";
  $"v, err := parser.ParseBytes(data)";
  $"if err != nil {";
  $"return err";
  $"}";
  $"defer jsonParserCampaignSites.Put(parser)";
  $"return s.FillFromJSON(v)";
  $"}"].
Proof. vm_compute. reflexivity. Qed.
Example w_map_TestMap01_MarshalJSON : marshal_text $"TestMap01" = [
  $"func (s *TestMap01) MarshalJSON() ([]byte, error) {";
  $"var result jwriter.Writer";
  $"if err := s.MarshalTo(&result); err != nil {";
  $"return nil, err";
  $"}";
  $"return result.BuildBytes()";
  $"}"].
Proof. vm_compute. reflexivity. Qed.
Example w_map_Property_MarshalJSON : marshal_text $"Property" = [
  $"func (s *Property) MarshalJSON() ([]byte, error) {";
  $"var result jwriter.Writer";
  $"if err := s.MarshalTo(&result); err != nil {";
  $"return nil, err";
  $"}";
  $"return result.BuildBytes()";
  $"}"].
Proof. vm_compute. reflexivity. Qed.
Example w_map_CampaignSites_MarshalJSON : marshal_text $"CampaignSites" = [
  $"func (s *CampaignSites) MarshalJSON() ([]byte, error) {";
  $"var result jwriter.Writer";
  $"if err := s.MarshalTo(&result); err != nil {";
  $"return nil, err";
  $"}";
  $"return result.BuildBytes()";
  $"}"].
Proof. vm_compute. reflexivity. Qed.
(** ** test/tests/fill/test_nested/13_nested.go.out.go *)
Example w_nested_Root_UnmarshalJSON : unmarshal_text $"Root" = [
  $"var jsonParserRoot fastjson.ParserPool";
  $"func (s *Root) UnmarshalJSON(data []byte) error {";
  $"parser := jsonParserRoot.Get()";
  $"v, err := parser.ParseBytes(data)";
  $"if err != nil {";
  $"return err";
  $"}";
  $"defer jsonParserRoot.Put(parser)";
  $"return s.FillFromJSON(v)";
  $"}"].
Proof. vm_compute. reflexivity. Qed.
Example w_nested_Middle_UnmarshalJSON : unmarshal_text $"Middle" = [
  $"var jsonParserMiddle fastjson.ParserPool";
  $"func (s *Middle) UnmarshalJSON(data []byte) error {";
  $"parser := jsonParserMiddle.Get()";
  $"v, err := parser.ParseBytes(data)";
  $"if err != nil {";
  $"return err";
  $"}";
  $"defer jsonParserMiddle.Put(parser)";
  $"return s.FillFromJSON(v)";
  $"}"].
Proof. vm_compute. reflexivity. Qed.
Example w_nested_Middles_UnmarshalJSON : unmarshal_text $"Middles" = [
  $"var jsonParserMiddles fastjson.ParserPool";
  $"func (s *Middles) UnmarshalJSON(data []byte) error {";
  $"parser := jsonParserMiddles.Get()";
  $"v, err := parser.ParseBytes(data)";
  $"if err != nil {";
  $"return err";
  $"}";
  $"defer jsonParserMiddles.Put(parser)";
  $"return s.FillFromJSON(v)";
  $"}"].
Proof. vm_compute. reflexivity. Qed.
Example w_nested_Meta_UnmarshalJSON : unmarshal_text $"Meta" = [
  $"var jsonParserMeta fastjson.ParserPool";
  $"func (s *Meta) UnmarshalJSON(data []byte) error {";
  $"parser := jsonParserMeta.Get()";
  $"v, err := parser.ParseBytes(data)";
  $"if err != nil {";
  $"return err";
  $"}";
  $"defer jsonParserMeta.Put(parser)";
  $"return s.FillFromJSON(v)";
  $"}"].
Proof. vm_compute. reflexivity. Qed.
Example w_nested_Personal_UnmarshalJSON : unmarshal_text $"Personal" = [
  $"var jsonParserPersonal fastjson.ParserPool";
  $"func (s *Personal) UnmarshalJSON(data []byte) error {";
  $"parser := jsonParserPersonal.Get()";
  $"v, err := parser.ParseBytes(data)";
  $"if err != nil {";
  $"return err";
  $"}";
  $"defer jsonParserPersonal.Put(parser)";
  $"return s.FillFromJSON(v)";
  $"}"].
Proof. vm_compute. reflexivity. Qed.
Example w_nested_Tags_UnmarshalJSON : unmarshal_text $"Tags" = [
  $"var jsonParserTags fastjson.ParserPool";
  $"func (s *Tags) UnmarshalJSON(data []byte) error {";
  $"parser := jsonParserTags.Get()";
  $"v, err := parser.ParseBytes(data)";
  $"if err != nil {";
  $"return err";
  $"}";
  $"defer jsonParserTags.Put(parser)";
  $"return s.FillFromJSON(v)";
  $"}"].
Proof. vm_compute. reflexivity. Qed.
Example w_nested_CustomEvent_UnmarshalJSON : unmarshal_text $"CustomEvent" = [
  $"var jsonParserCustomEvent fastjson.ParserPool";
  $"func (s *CustomEvent) UnmarshalJSON(data []byte) error {";
  $"parser := jsonParserCustomEvent.Get()";
  $"v, err := parser.ParseBytes(data)";
  $"if err != nil {";
  $"return err";
  $"}";
  $"defer jsonParserCustomEvent.Put(parser)";
  $"return s.FillFromJSON(v)";
  $"}"].
Proof. vm_compute. reflexivity. Qed.
Example w_nested_WRRetry_UnmarshalJSON : unmarshal_text $"WRRetry" = [
  $"var jsonParserWRRetry fastjson.ParserPool";
  $"func (s *WRRetry) UnmarshalJSON(data []byte) error {";
  $"parser := jsonParserWRRetry.Get()";
  $"v, err := parser.ParseBytes(data)";
  $"if err != nil {";
  $"return err";
  $"}";
  $"defer jsonParserWRRetry.Put(parser)";
  $"return s.FillFromJSON(v)";
  $"}"].
Proof. vm_compute. reflexivity. Qed.
Example w_nested_Root_MarshalJSON : marshal_text $"Root" = [
  $"func (s *Root) MarshalJSON() ([]byte, error) {";
  $"var result jwriter.Writer";
  $"if err := s.MarshalTo(&result); err != nil {";
  $"return nil, err";
  $"}";
  $"return result.BuildBytes()";
  $"}"].
Proof. vm_compute. reflexivity. Qed.
Example w_nested_Middle_MarshalJSON : marshal_text $"Middle" = [
  $"func (s *Middle) MarshalJSON() ([]byte, error) {";
  $"var result jwriter.Writer";
  $"if err := s.MarshalTo(&result); err != nil {";
  $"return nil, err";
  $"}";
  $"return result.BuildBytes()";
  $"}"].
Proof. vm_compute. reflexivity. Qed.
Example w_nested_Middles_MarshalJSON : marshal_text $"Middles" = [
  $"func (s *Middles) MarshalJSON() ([]byte, error) {";
  $"var result jwriter.Writer";
  $"if err := s.MarshalTo(&result); err != nil {";
  $"return nil, err";
  $"}";
  $"return result.BuildBytes()";
  $"}"].
Proof. vm_compute. reflexivity. Qed.
Example w_nested_Meta_MarshalJSON : marshal_text $"Meta" = [
  $"func (s *Meta) MarshalJSON() ([]byte, error) {";
  $"var result jwriter.Writer";
  $"if err := s.MarshalTo(&result); err != nil {";
  $"return nil, err";
  $"}";
  $"return result.BuildBytes()";
  $"}"].
Proof. vm_compute. reflexivity. Qed.
Example w_nested_Personal_MarshalJSON : marshal_text $"Personal" = [
  $"func (s *Personal) MarshalJSON() ([]byte, error) {";
  $"var result jwriter.Writer";
  $"if err := s.MarshalTo(&result); err != nil {";
  $"return nil, err";
  $"}";
  $"return result.BuildBytes()";
  $"}"].
Proof. vm_compute. reflexivity. Qed.
Example w_nested_Tags_MarshalJSON : marshal_text $"Tags" = [
  $"func (s *Tags) MarshalJSON() ([]byte, error) {";
  $"var result jwriter.Writer";
  $"if err := s.MarshalTo(&result); err != nil {";
  $"return nil, err";
  $"}";
  $"return result.BuildBytes()";
  $"}"].
Proof. vm_compute. reflexivity. Qed.
Example w_nested_CustomEvent_MarshalJSON : marshal_text $"CustomEvent" = [
  $"func (s *CustomEvent) MarshalJSON() ([]byte, error) {";
  $"var result jwriter.Writer";
  $"if err := s.MarshalTo(&result); err != nil {";
  $"return nil, err";
  $"}";
  $"return result.BuildBytes()";
  $"}"].
Proof. vm_compute. reflexivity. Qed.
Example w_nested_WRRetry_MarshalJSON : marshal_text $"WRRetry" = [
  $"func (s *WRRetry) MarshalJSON() ([]byte, error) {";
  $"var result jwriter.Writer";
  $"if err := s.MarshalTo(&result); err != nil {";
  $"return nil, err";
  $"}";
  $"return result.BuildBytes()";
  $"}"].
Proof. vm_compute. reflexivity. Qed.
(** ** test/tests/fill/test_nostruct/10_nostruct.go.out.go *)
Example w_nostruct_TestMap10_UnmarshalJSON : unmarshal_text $"TestMap10" = [
  $"var jsonParserTestMap10 fastjson.ParserPool";
  $"func (s *TestMap10) UnmarshalJSON(data []byte) error {";
  $"parser := jsonParserTestMap10.Get()";
  $"v, err := parser.ParseBytes(data)";
  $"if err != nil {";
  $"return err";
  $"}";
  $"defer jsonParserTestMap10.Put(parser)";
  $"return s.FillFromJSON(v)";
  $"}"].
Proof. vm_compute. reflexivity. Qed.
Example w_nostruct_TestMap11_UnmarshalJSON : unmarshal_text $"TestMap11" = [
  $"var jsonParserTestMap11 fastjson.ParserPool";
  $"func (s *TestMap11) UnmarshalJSON(data []byte) error {";
  $"parser := jsonParserTestMap11.Get()";
  $"v, err := parser.ParseBytes(data)";
  $"if err != nil {";
  $"return err";
  $"}";
  $"defer jsonParserTestMap11.Put(parser)";
  $"return s.FillFromJSON(v)";
  $"}"].
Proof. vm_compute. reflexivity. Qed.
Example w_nostruct_TestMap11Ref_UnmarshalJSON : unmarshal_text $"TestMap11Ref" = [
  $"var jsonParserTestMap11Ref fastjson.ParserPool";
  $"func (s *TestMap11Ref) UnmarshalJSON(data []byte) error {";
  $"parser := jsonParserTestMap11Ref.Get()";
  $"v, err := parser.ParseBytes(data)";
  $"if err != nil {";
  $"return err";
  $"}";
  $"defer jsonParserTestMap11Ref.Put(parser)";
  $"return s.FillFromJSON(v)";
  $"}"].
Proof. vm_compute. reflexivity. Qed.
Example w_nostruct_TestSlice12_UnmarshalJSON : unmarshal_text $"TestSlice12" = [
  $"var jsonParserTestSlice12 fastjson.ParserPool";
  $"func (s *TestSlice12) UnmarshalJSON(data []byte) error {";
  $"parser := jsonParserTestSlice12.Get()";
  $"v, err := parser.ParseBytes(data)";
  $"if err != nil {";
  $"return err";
  $"}";
  $"defer jsonParserTestSlice12.Put(parser)";
  $"return s.FillFromJSON(v)";
  $"}"].
Proof. vm_compute. reflexivity. Qed.
Example w_nostruct_TestSlice13_UnmarshalJSON : unmarshal_text $"TestSlice13" = [
  $"var jsonParserTestSlice13 fastjson.ParserPool";
  $"func (s *TestSlice13) UnmarshalJSON(data []byte) error {";
  $"parser := jsonParserTestSlice13.Get()";
  $"v, err := parser.ParseBytes(data)";
  $"if err != nil {";
  $"return err";
  $"}";
  $"defer jsonParserTestSlice13.Put(parser)";
  $"return s.FillFromJSON(v)";
  $"}"].
Proof. vm_compute. reflexivity. Qed.
Example w_nostruct_TestSlice14_UnmarshalJSON : unmarshal_text $"TestSlice14" = [
  $"var jsonParserTestSlice14 fastjson.ParserPool";
  $"func (s *TestSlice14) UnmarshalJSON(data []byte) error {";
  $"parser := jsonParserTestSlice14.Get()";
  $"v, err := parser.ParseBytes(data)";
  $"if err != nil {";
  $"return err";
  $"}";
  $"defer jsonParserTestSlice14.Put(parser)";
  $"return s.FillFromJSON(v)";
  $"}"].
Proof. vm_compute. reflexivity. Qed.
Example w_nostruct_TestMap10_MarshalJSON : marshal_text $"TestMap10" = [
  $"func (s *TestMap10) MarshalJSON() ([]byte, error) {";
  $"var result jwriter.Writer";
  $"if err := s.MarshalTo(&result); err != nil {";
  $"return nil, err";
  $"}";
  $"return result.BuildBytes()";
  $"}"].
Proof. vm_compute. reflexivity. Qed.
Example w_nostruct_TestMap11_MarshalJSON : marshal_text $"TestMap11" = [
  $"func (s *TestMap11) MarshalJSON() ([]byte, error) {";
  $"var result jwriter.Writer";
  $"if err := s.MarshalTo(&result); err != nil {";
  $"return nil, err";
  $"}";
  $"return result.BuildBytes()";
  $"}"].
Proof. vm_compute. reflexivity. Qed.
Example w_nostruct_TestMap11Ref_MarshalJSON : marshal_text $"TestMap11Ref" = [
  $"func (s *TestMap11Ref) MarshalJSON() ([]byte, error) {";
  $"var result jwriter.Writer";
  $"if err := s.MarshalTo(&result); err != nil {";
  $"return nil, err";
  $"}";
  $"return result.BuildBytes()";
  $"}"].
Proof. vm_compute. reflexivity. Qed.
Example w_nostruct_TestSlice12_MarshalJSON : marshal_text $"TestSlice12" = [
  $"func (s *TestSlice12) MarshalJSON() ([]byte, error) {";
  $"var result jwriter.Writer";
  $"if err := s.MarshalTo(&result); err != nil {";
  $"return nil, err";
  $"}";
  $"return result.BuildBytes()";
  $"}"].
Proof. vm_compute. reflexivity. Qed.
Example w_nostruct_TestSlice13_MarshalJSON : marshal_text $"TestSlice13" = [
  $"func (s *TestSlice13) MarshalJSON() ([]byte, error) {";
  $"var result jwriter.Writer";
  $"if err := s.MarshalTo(&result); err != nil {";
  $"return nil, err";
  $"}";
  $"return result.BuildBytes()";
  $"}"].
Proof. vm_compute. reflexivity. Qed.
Example w_nostruct_TestSlice14_MarshalJSON : marshal_text $"TestSlice14" = [
  $"func (s *TestSlice14) MarshalJSON() ([]byte, error) {";
  $"var result jwriter.Writer";
  $"if err := s.MarshalTo(&result); err != nil {";
  $"return nil, err";
  $"}";
  $"return result.BuildBytes()";
  $"}"].
Proof. vm_compute. reflexivity. Qed.
(** ** test/tests/fill/test_num/02_numeric_fld.go.out.go *)
Example w_num_NumStruct01_UnmarshalJSON : unmarshal_text $"NumStruct01" = [
  $"var jsonParserNumStruct01 fastjson.ParserPool";
  $"func (s *NumStruct01) UnmarshalJSON(data []byte) error {";
  $"parser := jsonParserNumStruct01.Get()";
  $"v, err := parser.ParseBytes(data)";
  $"if err != nil {";
  $"return err";
  $"}";
  $"defer jsonParserNumStruct01.Put(parser)";
  $"return s.FillFromJSON(v)";
  $"}"].
Proof. vm_compute. reflexivity. Qed.
Example w_num_NumStruct02_UnmarshalJSON : unmarshal_text $"NumStruct02" = [
  $"var jsonParserNumStruct02 fastjson.ParserPool";
  $"func (s *NumStruct02) UnmarshalJSON(data []byte) error {";
  $"parser := jsonParserNumStruct02.Get()";
  $"v, err := parser.ParseBytes(data)";
  $"if err != nil {";
  $"return err";
  $"}";
  $"defer jsonParserNumStruct02.Put(parser)";
  $"return s.FillFromJSON(v)";
  $"}"].
Proof. vm_compute. reflexivity. Qed.
Example w_num_NumStruct01_MarshalJSON : marshal_text $"NumStruct01" = [
  $"func (s *NumStruct01) MarshalJSON() ([]byte, error) {";
  $"var result jwriter.Writer";
  $"if err := s.MarshalTo(&result); err != nil {";
  $"return nil, err";
  $"}";
  $"return result.BuildBytes()";
  $"}"].
Proof. vm_compute. reflexivity. Qed.
Example w_num_NumStruct02_MarshalJSON : marshal_text $"NumStruct02" = [
  $"func (s *NumStruct02) MarshalJSON() ([]byte, error) {";
  $"var result jwriter.Writer";
  $"if err := s.MarshalTo(&result); err != nil {";
  $"return nil, err";
  $"}";
  $"return result.BuildBytes()";
  $"}"].
Proof. vm_compute. reflexivity. Qed.
(** ** test/tests/fill/test_packages/14_test_packages.go.out.go *)
Example w_packages_Test01_UnmarshalJSON : unmarshal_text $"Test01" = [
  $"var jsonParserTest01 fastjson.ParserPool";
  $"func (s *Test01) UnmarshalJSON(data []byte) error {";
  $"parser := jsonParserTest01.Get()";
  $"v, err := parser.ParseBytes(data)";
  $"if err != nil {";
  $"return err";
  $"}";
  $"defer jsonParserTest01.Put(parser)";
  $"return s.FillFromJSON(v)";
  $"}"].
Proof. vm_compute. reflexivity. Qed.
Example w_packages_Test01_MarshalJSON : marshal_text $"Test01" = [
  $"func (s *Test01) MarshalJSON() ([]byte, error) {";
  $"var result jwriter.Writer";
  $"if err := s.MarshalTo(&result); err != nil {";
  $"return nil, err";
  $"}";
  $"return result.BuildBytes()";
  $"}"].
Proof. vm_compute. reflexivity. Qed.
(** ** test/tests/fill/test_slice/03_slice_fld.go.out.go *)
Example w_slice_TestSlice01_UnmarshalJSON : unmarshal_text $"TestSlice01" = [
  $"var jsonParserTestSlice01 fastjson.ParserPool";
  $"func (s *TestSlice01) UnmarshalJSON(data []byte) error {";
  $"parser := jsonParserTestSlice01.Get()";
  $"v, err := parser.ParseBytes(data)";
  $"if err != nil {";
  $"return err";
  $"}";
  $"defer jsonParserTestSlice01.Put(parser)";
  $"return s.FillFromJSON(v)";
  $"}"].
Proof. vm_compute. reflexivity. Qed.
Example w_slice_TestSlice03_UnmarshalJSON : unmarshal_text $"TestSlice03" = [
  $"var jsonParserTestSlice03 fastjson.ParserPool";
  $"func (s *TestSlice03) UnmarshalJSON(data []byte) error {";
  $"parser := jsonParserTestSlice03.Get()";
  $"v, err := parser.ParseBytes(data)";
  $"if err != nil {";
  $"return err";
  $"}";
  $"defer jsonParserTestSlice03.Put(parser)";
  $"return s.FillFromJSON(v)";
  $"}"].
Proof. vm_compute. reflexivity. Qed.
Example w_slice_TestSlice02_UnmarshalJSON : unmarshal_text $"TestSlice02" = [
  $"var jsonParserTestSlice02 fastjson.ParserPool";
  $"func (s *TestSlice02) UnmarshalJSON(data []byte) error {";
  $"parser := jsonParserTestSlice02.Get()";
  $"v, err := parser.ParseBytes(data)";
  $"if err != nil {";
  $"return err";
  $"}";
  $"defer jsonParserTestSlice02.Put(parser)";
  $"return s.FillFromJSON(v)";
  $"}"].
Proof. vm_compute. reflexivity. Qed.
Example w_slice_CampaignSites_UnmarshalJSON : unmarshal_text $"CampaignSites" = [
  $"var jsonParserCampaignSites fastjson.ParserPool";
  $"func (s *CampaignSites) UnmarshalJSON(data []byte) error {";
  $"parser := jsonParserCampaignSites.Get()";
  $"v, err := parser.ParseBytes(data)";
  $"if err != nil {";
  $"return err";
  $"}";
  $"defer jsonParserCampaignSites.Put(parser)";
  $"return s.FillFromJSON(v)";
  $"}"].
Proof. vm_compute. reflexivity. Qed.
Example w_slice_TestSliceSlice_UnmarshalJSON : unmarshal_text $"TestSliceSlice" = [
  $"var jsonParserTestSliceSlice fastjson.ParserPool";
  $"func (s *TestSliceSlice) UnmarshalJSON(data []byte) error {";
  $"parser := jsonParserTestSliceSlice.Get()";
  $"v, err := parser.ParseBytes(data)";
  $"if err != nil {";
  $"return err";
  $"}";
  $"defer jsonParserTestSliceSlice.Put(parser)";
  $"return s.FillFromJSON(v)";
  $"}"].
Proof. vm_compute. reflexivity. Qed.
Example w_slice_Bytes_UnmarshalJSON : unmarshal_text $"Bytes" = [
  $"var jsonParserBytes fastjson.ParserPool";
  $"func (s *Bytes) UnmarshalJSON(data []byte) error {";
  $"parser := jsonParserBytes.Get()";
  $"v, err := parser.ParseBytes(data)";
  $"if err != nil {";
  $"return err";
  $"}";
  $"defer jsonParserBytes.Put(parser)";
  $"return s.FillFromJSON(v)";
  $"}"].
Proof. vm_compute. reflexivity. Qed.
Example w_slice_ArrBytes_UnmarshalJSON : unmarshal_text $"ArrBytes" = [
  $"var jsonParserArrBytes fastjson.ParserPool";
  $"func (s *ArrBytes) UnmarshalJSON(data []byte) error {";
  $"parser := jsonParserArrBytes.Get()";
  $"v, err := parser.ParseBytes(data)";
  $"if err != nil {";
  $"return err";
  $"}";
  $"defer jsonParserArrBytes.Put(parser)";
  $"return s.FillFromJSON(v)";
  $"}"].
Proof. vm_compute. reflexivity. Qed.
Example w_slice_BytesInStruct_UnmarshalJSON : unmarshal_text $"BytesInStruct" = [
  $"var jsonParserBytesInStruct fastjson.ParserPool";
  $"func (s *BytesInStruct) UnmarshalJSON(data []byte) error {";
  $"parser := jsonParserBytesInStruct.Get()";
  $"v, err := parser.ParseBytes(data)";
  $"if err != nil {";
  $"return err";
  $"}";
  $"defer jsonParserBytesInStruct.Put(parser)";
  $"return s.FillFromJSON(v)";
  $"}"].
Proof. vm_compute. reflexivity. Qed.
Example w_slice_TestSlice01_MarshalJSON : marshal_text $"TestSlice01" = [
  $"func (s *TestSlice01) MarshalJSON() ([]byte, error) {";
  $"var result jwriter.Writer";
  $"if err := s.MarshalTo(&result); err != nil {";
  $"return nil, err";
  $"}";
  $"return result.BuildBytes()";
  $"}"].
Proof. vm_compute. reflexivity. Qed.
Example w_slice_TestSlice03_MarshalJSON : marshal_text $"TestSlice03" = [
  $"func (s *TestSlice03) MarshalJSON() ([]byte, error) {";
  $"var result jwriter.Writer";
  $"if err := s.MarshalTo(&result); err != nil {";
  $"return nil, err";
  $"}";
  $"return result.BuildBytes()";
  $"}"].
Proof. vm_compute. reflexivity. Qed.
Example w_slice_TestSlice02_MarshalJSON : marshal_text $"TestSlice02" = [
  $"func (s *TestSlice02) MarshalJSON() ([]byte, error) {";
  $"var result jwriter.Writer";
  $"if err := s.MarshalTo(&result); err != nil {";
  $"return nil, err";
  $"}";
  $"return result.BuildBytes()";
  $"}"].
Proof. vm_compute. reflexivity. Qed.
Example w_slice_CampaignSites_MarshalJSON : marshal_text $"CampaignSites" = [
  $"func (s *CampaignSites) MarshalJSON() ([]byte, error) {";
  $"var result jwriter.Writer";
  $"if err := s.MarshalTo(&result); err != nil {";
  $"return nil, err";
  $"}";
  $"return result.BuildBytes()";
  $"}"].
Proof. vm_compute. reflexivity. Qed.
Example w_slice_TestSliceSlice_MarshalJSON : marshal_text $"TestSliceSlice" = [
  $"func (s *TestSliceSlice) MarshalJSON() ([]byte, error) {";
  $"var result jwriter.Writer";
  $"if err := s.MarshalTo(&result); err != nil {";
  $"return nil, err";
  $"}";
  $"return result.BuildBytes()";
  $"}"].
Proof. vm_compute. reflexivity. Qed.
Example w_slice_Bytes_MarshalJSON : marshal_text $"Bytes" = [
  $"func (s *Bytes) MarshalJSON() ([]byte, error) {";
  $"var result jwriter.Writer";
  $"if err := s.MarshalTo(&result); err != nil {";
  $"return nil, err";
  $"}";
  $"return result.BuildBytes()";
  $"}"].
Proof. vm_compute. reflexivity. Qed.
Example w_slice_ArrBytes_MarshalJSON : marshal_text $"ArrBytes" = [
  $"func (s *ArrBytes) MarshalJSON() ([]byte, error) {";
  $"var result jwriter.Writer";
  $"if err := s.MarshalTo(&result); err != nil {";
  $"return nil, err";
  $"}";
  $"return result.BuildBytes()";
  $"}"].
Proof. vm_compute. reflexivity. Qed.
Example w_slice_BytesInStruct_MarshalJSON : marshal_text $"BytesInStruct" = [
  $"func (s *BytesInStruct) MarshalJSON() ([]byte, error) {";
  $"var result jwriter.Writer";
  $"if err := s.MarshalTo(&result); err != nil {";
  $"return nil, err";
  $"}";
  $"return result.BuildBytes()";
  $"}"].
Proof. vm_compute. reflexivity. Qed.
(** ** test/tests/fill/test_string/01_string_fld.go.out.go *)
Example w_string_TestStr01_UnmarshalJSON : unmarshal_text $"TestStr01" = [
  $"var jsonParserTestStr01 fastjson.ParserPool";
  $"func (s *TestStr01) UnmarshalJSON(data []byte) error {";
  $"parser := jsonParserTestStr01.Get()";
  $"v, err := parser.ParseBytes(data)";
  $"if err != nil {";
  $"return err";
  $"}";
  $"defer jsonParserTestStr01.Put(parser)";
  $"return s.FillFromJSON(v)";
  $"}"].
Proof. vm_compute. reflexivity. Qed.
Example w_string_TestStr02_UnmarshalJSON : unmarshal_text $"TestStr02" = [
  $"var jsonParserTestStr02 fastjson.ParserPool";
  $"func (s *TestStr02) UnmarshalJSON(data []byte) error {";
  $"parser := jsonParserTestStr02.Get()";
  $"v, err := parser.ParseBytes(data)";
  $"if err != nil {";
  $"return err";
  $"}";
  $"defer jsonParserTestStr02.Put(parser)";
  $"return s.FillFromJSON(v)";
  $"}"].
Proof. vm_compute. reflexivity. Qed.
Example w_string_TestStr01_MarshalJSON : marshal_text $"TestStr01" = [
  $"func (s *TestStr01) MarshalJSON() ([]byte, error) {";
  $"var result jwriter.Writer";
  $"if err := s.MarshalTo(&result); err != nil {";
  $"return nil, err";
  $"}";
  $"return result.BuildBytes()";
  $"}"].
Proof. vm_compute. reflexivity. Qed.
Example w_string_TestStr02_MarshalJSON : marshal_text $"TestStr02" = [
  $"func (s *TestStr02) MarshalJSON() ([]byte, error) {";
  $"var result jwriter.Writer";
  $"if err := s.MarshalTo(&result); err != nil {";
  $"return nil, err";
  $"}";
  $"return result.BuildBytes()";
  $"}"].
Proof. vm_compute. reflexivity. Qed.
(** ** test/tests/fill/test_time/04_time_fld.go.out.go *)
Example w_time_TestTime01_UnmarshalJSON : unmarshal_text $"TestTime01" = [
  $"var jsonParserTestTime01 fastjson.ParserPool";
  $"func (s *TestTime01) UnmarshalJSON(data []byte) error {";
  $"parser := jsonParserTestTime01.Get()";
  $"v, err := parser.ParseBytes(data)";
  $"if err != nil {";
  $"return err";
  $"}";
  $"defer jsonParserTestTime01.Put(parser)";
  $"return s.FillFromJSON(v)";
  $"}"].
Proof. vm_compute. reflexivity. Qed.
Example w_time_TestTime2_UnmarshalJSON : unmarshal_text $"TestTime2" = [
  $"var jsonParserTestTime2 fastjson.ParserPool";
  $"func (s *TestTime2) UnmarshalJSON(data []byte) error {";
  $"parser := jsonParserTestTime2.Get()";
  $"v, err := parser.ParseBytes(data)";
  $"if err != nil {";
  $"return err";
  $"}";
  $"defer jsonParserTestTime2.Put(parser)";
  $"return s.FillFromJSON(v)";
  $"}"].
Proof. vm_compute. reflexivity. Qed.
Example w_time_TestTime01_MarshalJSON : marshal_text $"TestTime01" = [
  $"func (s *TestTime01) MarshalJSON() ([]byte, error) {";
  $"var result jwriter.Writer";
  $"if err := s.MarshalTo(&result); err != nil {";
  $"return nil, err";
  $"}";
  $"return result.BuildBytes()";
  $"}"].
Proof. vm_compute. reflexivity. Qed.
Example w_time_TestTime2_MarshalJSON : marshal_text $"TestTime2" = [
  $"func (s *TestTime2) MarshalJSON() ([]byte, error) {";
  $"var result jwriter.Writer";
  $"if err := s.MarshalTo(&result); err != nil {";
  $"return nil, err";
  $"}";
  $"return result.BuildBytes()";
  $"}"].
Proof. vm_compute. reflexivity. Qed.
(** ** test/tests/fill/test_trans/09_transitional.go.out.go *)
Example w_trans_TestTransitional_UnmarshalJSON : unmarshal_text $"TestTransitional" = [
  $"var jsonParserTestTransitional fastjson.ParserPool";
  $"func (s *TestTransitional) UnmarshalJSON(data []byte) error {";
  $"parser := jsonParserTestTransitional.Get()";
  $"v, err := parser.ParseBytes(data)";
  $"if err != nil {";
  $"return err";
  $"}";
  $"defer jsonParserTestTransitional.Put(parser)";
  $"return s.FillFromJSON(v)";
  $"}"].
Proof. vm_compute. reflexivity. Qed.
Example w_trans_TestTransitionalElem_UnmarshalJSON : unmarshal_text $"TestTransitionalElem" = [
  $"var jsonParserTestTransitionalElem fastjson.ParserPool";
  $"func (s *TestTransitionalElem) UnmarshalJSON(data []byte) error {";
  $"parser := jsonParserTestTransitionalElem.Get()";
  $"v, err := parser.ParseBytes(data)";
  $"if err != nil {";
  $"return err";
  $"}";
  $"defer jsonParserTestTransitionalElem.Put(parser)";
  $"return s.FillFromJSON(v)";
  $"}"].
Proof. vm_compute. reflexivity. Qed.
Example w_trans_TestExternalNested_UnmarshalJSON : unmarshal_text $"TestExternalNested" = [
  $"var jsonParserTestExternalNested fastjson.ParserPool";
  $"func (s *TestExternalNested) UnmarshalJSON(data []byte) error {";
  $"parser := jsonParserTestExternalNested.Get()";
  $"v, err := parser.ParseBytes(data)";
  $"if err != nil {";
  $"return err";
  $"}";
  $"defer jsonParserTestExternalNested.Put(parser)";
  $"return s.FillFromJSON(v)";
  $"}"].
Proof. vm_compute. reflexivity. Qed.
Example w_trans_TestTransitional_MarshalJSON : marshal_text $"TestTransitional" = [
  $"func (s *TestTransitional) MarshalJSON() ([]byte, error) {";
  $"var result jwriter.Writer";
  $"if err := s.MarshalTo(&result); err != nil {";
  $"return nil, err";
  $"}";
  $"return result.BuildBytes()";
  $"}"].
Proof. vm_compute. reflexivity. Qed.
Example w_trans_TestTransitionalElem_MarshalJSON : marshal_text $"TestTransitionalElem" = [
  $"func (s *TestTransitionalElem) MarshalJSON() ([]byte, error) {";
  $"var result jwriter.Writer";
  $"if err := s.MarshalTo(&result); err != nil {";
  $"return nil, err";
  $"}";
  $"return result.BuildBytes()";
  $"}"].
Proof. vm_compute. reflexivity. Qed.
Example w_trans_TestExternalNested_MarshalJSON : marshal_text $"TestExternalNested" = [
  $"func (s *TestExternalNested) MarshalJSON() ([]byte, error) {";
  $"var result jwriter.Writer";
  $"if err := s.MarshalTo(&result); err != nil {";
  $"return nil, err";
  $"}";
  $"return result.BuildBytes()";
  $"}"].
Proof. vm_compute. reflexivity. Qed.
(** ** test/tests/fill/test_userdefined/12_user_defined.go.out.go *)
Example w_userdefined_TestUserDefined_UnmarshalJSON : unmarshal_text $"TestUserDefined" = [
  $"var jsonParserTestUserDefined fastjson.ParserPool";
  $"func (s *TestUserDefined) UnmarshalJSON(data []byte) error {";
  $"parser := jsonParserTestUserDefined.Get()";
  $"v, err := parser.ParseBytes(data)";
  $"if err != nil {";
  $"return err";
  $"}";
  $"defer jsonParserTestUserDefined.Put(parser)";
  $"return s.FillFromJSON(v)";
  $"}"].
Proof. vm_compute. reflexivity. Qed.
Example w_userdefined_TestUserDefinedRef_UnmarshalJSON : unmarshal_text $"TestUserDefinedRef" = [
  $"var jsonParserTestUserDefinedRef fastjson.ParserPool";
  $"func (s *TestUserDefinedRef) UnmarshalJSON(data []byte) error {";
  $"parser := jsonParserTestUserDefinedRef.Get()";
  $"v, err := parser.ParseBytes(data)";
  $"if err != nil {";
  $"return err";
  $"}";
  $"defer jsonParserTestUserDefinedRef.Put(parser)";
  $"return s.FillFromJSON(v)";
  $"}"].
Proof. vm_compute. reflexivity. Qed.
Example w_userdefined_DefinedFieldAsUserDefined_UnmarshalJSON : unmarshal_text $"DefinedFieldAsUserDefined" = [
  $"var jsonParserDefinedFieldAsUserDefined fastjson.ParserPool";
  $"func (s *DefinedFieldAsUserDefined) UnmarshalJSON(data []byte) error {";
  $"parser := jsonParserDefinedFieldAsUserDefined.Get()";
  $"v, err := parser.ParseBytes(data)";
  $"if err != nil {";
  $"return err";
  $"}";
  $"defer jsonParserDefinedFieldAsUserDefined.Put(parser)";
  $"return s.FillFromJSON(v)";
  $"}"].
Proof. vm_compute. reflexivity. Qed.
Example w_userdefined_TestUserDefined_MarshalJSON : marshal_text $"TestUserDefined" = [
  $"func (s *TestUserDefined) MarshalJSON() ([]byte, error) {";
  $"var result jwriter.Writer";
  $"if err := s.MarshalTo(&result); err != nil {";
  $"return nil, err";
  $"}";
  $"return result.BuildBytes()";
  $"}"].
Proof. vm_compute. reflexivity. Qed.
Example w_userdefined_TestUserDefinedRef_MarshalJSON : marshal_text $"TestUserDefinedRef" = [
  $"func (s *TestUserDefinedRef) MarshalJSON() ([]byte, error) {";
  $"var result jwriter.Writer";
  $"if err := s.MarshalTo(&result); err != nil {";
  $"return nil, err";
  $"}";
  $"return result.BuildBytes()";
  $"}"].
Proof. vm_compute. reflexivity. Qed.
Example w_userdefined_DefinedFieldAsUserDefined_MarshalJSON : marshal_text $"DefinedFieldAsUserDefined" = [
  $"func (s *DefinedFieldAsUserDefined) MarshalJSON() ([]byte, error) {";
  $"var result jwriter.Writer";
  $"if err := s.MarshalTo(&result); err != nil {";
  $"return nil, err";
  $"}";
  $"return result.BuildBytes()";
  $"}"].
Proof. vm_compute. reflexivity. Qed.
(** ** test/tests/fill/test_uuid/08_uuid_fld.go.out.go *)
Example w_uuid_TestUUID_UnmarshalJSON : unmarshal_text $"TestUUID" = [
  $"var jsonParserTestUUID fastjson.ParserPool";
  $"func (s *TestUUID) UnmarshalJSON(data []byte) error {";
  $"parser := jsonParserTestUUID.Get()";
  $"v, err := parser.ParseBytes(data)";
  $"if err != nil {";
  $"return err";
  $"}";
  $"defer jsonParserTestUUID.Put(parser)";
  $"return s.FillFromJSON(v)";
  $"}"].
Proof. vm_compute. reflexivity. Qed.
Example w_uuid_InheritUUID2_UnmarshalJSON : unmarshal_text $"InheritUUID2" = [
  $"var jsonParserInheritUUID2 fastjson.ParserPool";
  $"func (s *InheritUUID2) UnmarshalJSON(data []byte) error {";
  $"parser := jsonParserInheritUUID2.Get()";
  $"v, err := parser.ParseBytes(data)";
  $"if err != nil {";
  $"return err";
  $"}";
  $"defer jsonParserInheritUUID2.Put(parser)";
  $"return s.FillFromJSON(v)";
  $"}"].
Proof. vm_compute. reflexivity. Qed.
Example w_uuid_InheritUUID_UnmarshalJSON : unmarshal_text $"InheritUUID" = [
  $"var jsonParserInheritUUID fastjson.ParserPool";
  $"func (s *InheritUUID) UnmarshalJSON(data []byte) error {";
  $"parser := jsonParserInheritUUID.Get()";
  $"v, err := parser.ParseBytes(data)";
  $"if err != nil {";
  $"return err";
  $"}";
  $"defer jsonParserInheritUUID.Put(parser)";
  $"return s.FillFromJSON(v)";
  $"}"].
Proof. vm_compute. reflexivity. Qed.
Example w_uuid_TestUUID_MarshalJSON : marshal_text $"TestUUID" = [
  $"func (s *TestUUID) MarshalJSON() ([]byte, error) {";
  $"var result jwriter.Writer";
  $"if err := s.MarshalTo(&result); err != nil {";
  $"return nil, err";
  $"}";
  $"return result.BuildBytes()";
  $"}"].
Proof. vm_compute. reflexivity. Qed.
Example w_uuid_InheritUUID2_MarshalJSON : marshal_text $"InheritUUID2" = [
  $"func (s *InheritUUID2) MarshalJSON() ([]byte, error) {";
  $"var result jwriter.Writer";
  $"if err := s.MarshalTo(&result); err != nil {";
  $"return nil, err";
  $"}";
  $"return result.BuildBytes()";
  $"}"].
Proof. vm_compute. reflexivity. Qed.
Example w_uuid_InheritUUID_MarshalJSON : marshal_text $"InheritUUID" = [
  $"func (s *InheritUUID) MarshalJSON() ([]byte, error) {";
  $"var result jwriter.Writer";
  $"if err := s.MarshalTo(&result); err != nil {";
  $"return nil, err";
  $"}";
  $"return result.BuildBytes()";
  $"}"].
Proof. vm_compute. reflexivity. Qed.
