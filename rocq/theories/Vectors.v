(** Generated by tools/gen_vectors.py from /repo/src/tests.rs; do not edit.
    The project's own 1438 test vectors, re-run on the model: a regression check that the
    model computes what the code is tested to compute (tests, not theorems). *)
From Verif Require Import Api.

Definition U (s : string) : str := match from_utf8 (L s) with Some t => t | None => [] end.
Arguments U _%string.

Fixpoint prefixb (p s : str) : bool :=
  match p, s with
  | [], _ => true
  | x :: p', y :: s' => N.eqb x y && prefixb p' s'
  | _ :: _, [] => false
  end.
Fixpoint substring_of (p s : str) : bool :=
  prefixb p s || match s with [] => false | _ :: s' => substring_of p s' end.

Definition v_sub (fl : N) (i o : string) : bool :=
  match demangle (env_of fl) (U i) with Ok r => substring_of (U o) r | _ => false end.
Definition v_eq (fl : N) (i o : string) : bool :=
  match demangle (env_of fl) (U i) with Ok r => str_eqb r (U o) | _ => false end.
Definition v_bad (fl : N) (i _o : string) : bool :=
  match demangle (env_of fl) (U i) with Err _ => true | _ => false end.
Arguments v_sub _%N _%string _%string.
Arguments v_eq _%N _%string _%string.
Arguments v_bad _%N _%string _%string.

Example vec_0000 : v_bad 0 "?ff@@$$J0YAXAU?$AS_@$0A@PEAU?$AS_@$0A@H@__clang@@@__clang@@@Z"
  "" = true.
Proof. vm_compute. reflexivity. Qed.
Example vec_0001 : v_bad 0 "?f0@@YAXPEU?$AS_@$00$$CAD@__clang@@@Z"
  "" = true.
Proof. vm_compute. reflexivity. Qed.
Example vec_0002 : v_bad 0 "?@@8"
  "" = true.
Proof. vm_compute. reflexivity. Qed.
Example vec_0003 : v_bad 0 "??"
  "" = true.
Proof. vm_compute. reflexivity. Qed.
Example vec_0004 : v_bad 0 "??0@"
  "" = true.
Proof. vm_compute. reflexivity. Qed.
Example vec_0005 : v_bad 0 "? @@   YC@"
  "" = true.
Proof. vm_compute. reflexivity. Qed.
Example vec_0006 : v_bad 0 "??B@$$J0"
  "" = true.
Proof. vm_compute. reflexivity. Qed.
Example vec_0007 : v_bad 0 "??B@4"
  "" = true.
Proof. vm_compute. reflexivity. Qed.
Example vec_0008 : v_bad 0 "?A?@?@???B@4D"
  "" = true.
Proof. vm_compute. reflexivity. Qed.
Example vec_0009 : v_bad 0 "?A?@?@???B@4DD"
  "" = true.
Proof. vm_compute. reflexivity. Qed.
Example vec_0010 : v_bad 0 "??$A@P15@"
  "" = true.
Proof. vm_compute. reflexivity. Qed.
Example vec_0011 : v_bad 0 "??$A@P"
  "" = true.
Proof. vm_compute. reflexivity. Qed.
Example vec_0012 : v_bad 0 "?A@@"
  "" = true.
Proof. vm_compute. reflexivity. Qed.
Example vec_0013 : v_bad 0 "?A@@P"
  "" = true.
Proof. vm_compute. reflexivity. Qed.
Example vec_0014 : v_bad 0 "?A@@4PQA@@"
  "" = true.
Proof. vm_compute. reflexivity. Qed.
Example vec_0015 : v_bad 0 "??__E"
  "" = true.
Proof. vm_compute. reflexivity. Qed.
Example vec_0016 : v_bad 0 "??__E@@"
  "" = true.
Proof. vm_compute. reflexivity. Qed.
Example vec_0017 : v_bad 0 "??__E?Foo@@0HA@@"
  "" = true.
Proof. vm_compute. reflexivity. Qed.
Example vec_0018 : v_bad 0 "??__E?i@C@@0HA@"
  "" = true.
Proof. vm_compute. reflexivity. Qed.
Example vec_0019 : v_bad 0 "??__E?Foo@@YAXXZ"
  "" = true.
Proof. vm_compute. reflexivity. Qed.
Example vec_0020 : v_bad 0 "?foo@@YAH0@Z"
  "" = true.
Proof. vm_compute. reflexivity. Qed.
Example vec_0021 : v_bad 0 "?foo@@YAHH"
  "" = true.
Proof. vm_compute. reflexivity. Qed.
Example vec_0022 : v_bad 0 "??8@8"
  "" = true.
Proof. vm_compute. reflexivity. Qed.
Example vec_0023 : v_bad 0 "?B@?$?K$H?"
  "" = true.
Proof. vm_compute. reflexivity. Qed.
Example vec_0024 : v_bad 0 "??C@$"
  "" = true.
Proof. vm_compute. reflexivity. Qed.
Example vec_0025 : v_bad 0 "?x@@3PAW"
  "" = true.
Proof. vm_compute. reflexivity. Qed.
Example vec_0026 : v_bad 0 "??}"
  "" = true.
Proof. vm_compute. reflexivity. Qed.
Example vec_0027 : v_bad 0 "?foo@?$?_"
  "" = true.
Proof. vm_compute. reflexivity. Qed.
Example vec_0028 : v_bad 0 "??_R4"
  "" = true.
Proof. vm_compute. reflexivity. Qed.
Example vec_0029 : v_bad 0 "??_R4foo@@"
  "" = true.
Proof. vm_compute. reflexivity. Qed.
Example vec_0030 : v_bad 0 "?foo@?$?BH@@QAEHXZ"
  "" = true.
Proof. vm_compute. reflexivity. Qed.
Example vec_0031 : v_bad 0 "?foo@?$?0H@"
  "" = true.
Proof. vm_compute. reflexivity. Qed.
Example vec_0032 : v_bad 0 "??_C@_0A@01234567@a"
  "" = true.
Proof. vm_compute. reflexivity. Qed.
Example vec_0033 : v_bad 0 "??_C@_1A@01234567@a"
  "" = true.
Proof. vm_compute. reflexivity. Qed.
Example vec_0034 : v_bad 0 "??_C@_0301234567@a"
  "" = true.
Proof. vm_compute. reflexivity. Qed.
Example vec_0035 : v_bad 0 "??_C@_1301234567@a"
  "" = true.
Proof. vm_compute. reflexivity. Qed.
Example vec_0036 : v_bad 0 "??_C@_0601234567@abcdefghijklmnopqrtsuvwxyzABCDEFGHIJKLMNOPQRTSUVWXYZabcdefghijklmnopqrtsuvwxyzABCDEFGHIJKLMNOPQRTSUVWXYZabcdefghijklmnopqrtsuvwxyz"
  "" = true.
Proof. vm_compute. reflexivity. Qed.
Example vec_0037 : v_bad 0 "??_C@_12@?z"
  "" = true.
Proof. vm_compute. reflexivity. Qed.
Example vec_0038 : v_bad 0 "??$foo@$1??_C@_02PCEFGMJL@hi?$AA@@"
  "" = true.
Proof. vm_compute. reflexivity. Qed.
Example vec_0039 : v_bad 0 "??_C@"
  "" = true.
Proof. vm_compute. reflexivity. Qed.
Example vec_0040 : v_bad 0 "??_C@_"
  "" = true.
Proof. vm_compute. reflexivity. Qed.
Example vec_0041 : v_bad 0 "??_C@_3"
  "" = true.
Proof. vm_compute. reflexivity. Qed.
Example vec_0042 : v_bad 0 "??_C@_01"
  "" = true.
Proof. vm_compute. reflexivity. Qed.
Example vec_0043 : v_bad 0 "??_C@_0101234567@"
  "" = true.
Proof. vm_compute. reflexivity. Qed.
Example vec_0044 : v_bad 0 "??_C@_0101234567@?"
  "" = true.
Proof. vm_compute. reflexivity. Qed.
Example vec_0045 : v_bad 0 "??_C@_0101234567@?$"
  "" = true.
Proof. vm_compute. reflexivity. Qed.
Example vec_0046 : v_bad 0 "??_C@_0101234567@?$za"
  "" = true.
Proof. vm_compute. reflexivity. Qed.
Example vec_0047 : v_bad 0 "??_C@_0101234567@?$az"
  "" = true.
Proof. vm_compute. reflexivity. Qed.
Example vec_0048 : v_bad 0 "??_C@_1201234567@a?$az"
  "" = true.
Proof. vm_compute. reflexivity. Qed.
Example vec_0049 : v_bad 0 "??@foo"
  "" = true.
Proof. vm_compute. reflexivity. Qed.
Example vec_0050 : v_bad 0 "?foo@@3YA@A"
  "" = true.
Proof. vm_compute. reflexivity. Qed.
Example vec_0051 : v_bad 0 "?foo@@3Y~01KA"
  "" = true.
Proof. vm_compute. reflexivity. Qed.
Example vec_0052 : v_bad 0 "?foo@@3Y0~1KA"
  "" = true.
Proof. vm_compute. reflexivity. Qed.
Example vec_0053 : v_bad 0 "?x@@3PEAY02$$CRHEA"
  "" = true.
Proof. vm_compute. reflexivity. Qed.
Example vec_0054 : v_bad 0 "?foo@@3_"
  "" = true.
Proof. vm_compute. reflexivity. Qed.
Example vec_0055 : v_bad 0 "?foo@@3_XA"
  "" = true.
Proof. vm_compute. reflexivity. Qed.
Example vec_0056 : v_bad 0 "?foo@@3Vbar"
  "" = true.
Proof. vm_compute. reflexivity. Qed.
Example vec_0057 : v_bad 0 "?foo@@3Vbar@"
  "" = true.
Proof. vm_compute. reflexivity. Qed.
Example vec_0058 : v_bad 0 "?foo@?A"
  "" = true.
Proof. vm_compute. reflexivity. Qed.
Example vec_0059 : v_bad 0 "?foo@?"
  "" = true.
Proof. vm_compute. reflexivity. Qed.
Example vec_0060 : v_bad 0 "?foo@??"
  "" = true.
Proof. vm_compute. reflexivity. Qed.
Example vec_0061 : v_bad 0 "?foo@?XX?"
  "" = true.
Proof. vm_compute. reflexivity. Qed.
Example vec_0062 : v_bad 0 "?foo@?A@?"
  "" = true.
Proof. vm_compute. reflexivity. Qed.
Example vec_0063 : v_bad 0 "?foo@?Q@?"
  "" = true.
Proof. vm_compute. reflexivity. Qed.
Example vec_0064 : v_bad 0 "?foo@?BQ@?"
  "" = true.
Proof. vm_compute. reflexivity. Qed.
Example vec_0065 : v_bad 0 "?foo@?0?"
  "" = true.
Proof. vm_compute. reflexivity. Qed.
Example vec_0066 : v_bad 0 "??_Sfoo@@1Abar@@"
  "" = true.
Proof. vm_compute. reflexivity. Qed.
Example vec_0067 : v_bad 0 "??_Bfoo@@1"
  "" = true.
Proof. vm_compute. reflexivity. Qed.
Example vec_0068 : v_bad 0 "??_R0"
  "" = true.
Proof. vm_compute. reflexivity. Qed.
Example vec_0069 : v_bad 0 "??_R0H"
  "" = true.
Proof. vm_compute. reflexivity. Qed.
Example vec_0070 : v_bad 0 "??_R0H@8foo"
  "" = true.
Proof. vm_compute. reflexivity. Qed.
Example vec_0071 : v_bad 0 "??_R1012?3foo@@"
  "" = true.
Proof. vm_compute. reflexivity. Qed.
Example vec_0072 : v_bad 0 "??_R2foo@@1"
  "" = true.
Proof. vm_compute. reflexivity. Qed.
Example vec_0073 : v_bad 0 "??_A"
  "" = true.
Proof. vm_compute. reflexivity. Qed.
Example vec_0074 : v_bad 0 "??_P"
  "" = true.
Proof. vm_compute. reflexivity. Qed.
Example vec_0075 : v_bad 0 ".?AUBase@@@8"
  "" = true.
Proof. vm_compute. reflexivity. Qed.
Example vec_0076 : v_sub 0 "?foo@@YAXI@Z"
  "void __cdecl foo(unsigned int)" = true.
Proof. vm_compute. reflexivity. Qed.
Example vec_0077 : v_sub 0 "?foo@@YAXN@Z  "
  "void __cdecl foo(double)" = true.
Proof. vm_compute. reflexivity. Qed.
Example vec_0078 : v_sub 0 "?foo_pad@@YAXPAD@Z"
  "void __cdecl foo_pad(char *)" = true.
Proof. vm_compute. reflexivity. Qed.
Example vec_0079 : v_sub 0 "?foo_pad@@YAXPEAD@Z"
  "void __cdecl foo_pad(char *)" = true.
Proof. vm_compute. reflexivity. Qed.
Example vec_0080 : v_sub 0 "?foo_pbd@@YAXPBD@Z"
  "void __cdecl foo_pbd(char const *)" = true.
Proof. vm_compute. reflexivity. Qed.
Example vec_0081 : v_sub 0 "?foo_pbd@@YAXPEBD@Z"
  "void __cdecl foo_pbd(char const *)" = true.
Proof. vm_compute. reflexivity. Qed.
Example vec_0082 : v_sub 0 "?foo_pcd@@YAXPCD@Z"
  "void __cdecl foo_pcd(char volatile *)" = true.
Proof. vm_compute. reflexivity. Qed.
Example vec_0083 : v_sub 0 "?foo_pcd@@YAXPECD@Z"
  "void __cdecl foo_pcd(char volatile *)" = true.
Proof. vm_compute. reflexivity. Qed.
Example vec_0084 : v_sub 0 "?foo_qad@@YAXQAD@Z"
  "void __cdecl foo_qad(char *const)" = true.
Proof. vm_compute. reflexivity. Qed.
Example vec_0085 : v_sub 0 "?foo_qad@@YAXQEAD@Z"
  "void __cdecl foo_qad(char *const)" = true.
Proof. vm_compute. reflexivity. Qed.
Example vec_0086 : v_sub 0 "?foo_rad@@YAXRAD@Z"
  "void __cdecl foo_rad(char *volatile)" = true.
Proof. vm_compute. reflexivity. Qed.
Example vec_0087 : v_sub 0 "?foo_rad@@YAXREAD@Z"
  "void __cdecl foo_rad(char *volatile)" = true.
Proof. vm_compute. reflexivity. Qed.
Example vec_0088 : v_sub 0 "?foo_sad@@YAXSAD@Z"
  "void __cdecl foo_sad(char *const volatile)" = true.
Proof. vm_compute. reflexivity. Qed.
Example vec_0089 : v_sub 0 "?foo_sad@@YAXSEAD@Z"
  "void __cdecl foo_sad(char *const volatile)" = true.
Proof. vm_compute. reflexivity. Qed.
Example vec_0090 : v_sub 0 "?foo_piad@@YAXPIAD@Z"
  "void __cdecl foo_piad(char *__restrict)" = true.
Proof. vm_compute. reflexivity. Qed.
Example vec_0091 : v_sub 0 "?foo_piad@@YAXPEIAD@Z"
  "void __cdecl foo_piad(char *__restrict)" = true.
Proof. vm_compute. reflexivity. Qed.
Example vec_0092 : v_sub 0 "?foo_qiad@@YAXQIAD@Z"
  "void __cdecl foo_qiad(char *const __restrict)" = true.
Proof. vm_compute. reflexivity. Qed.
Example vec_0093 : v_sub 0 "?foo_qiad@@YAXQEIAD@Z"
  "void __cdecl foo_qiad(char *const __restrict)" = true.
Proof. vm_compute. reflexivity. Qed.
Example vec_0094 : v_sub 0 "?foo_riad@@YAXRIAD@Z"
  "void __cdecl foo_riad(char *volatile __restrict)" = true.
Proof. vm_compute. reflexivity. Qed.
Example vec_0095 : v_sub 0 "?foo_riad@@YAXREIAD@Z"
  "void __cdecl foo_riad(char *volatile __restrict)" = true.
Proof. vm_compute. reflexivity. Qed.
Example vec_0096 : v_sub 0 "?foo_siad@@YAXSIAD@Z"
  "void __cdecl foo_siad(char *const volatile __restrict)" = true.
Proof. vm_compute. reflexivity. Qed.
Example vec_0097 : v_sub 0 "?foo_siad@@YAXSEIAD@Z"
  "void __cdecl foo_siad(char *const volatile __restrict)" = true.
Proof. vm_compute. reflexivity. Qed.
Example vec_0098 : v_sub 0 "?foo_papad@@YAXPAPAD@Z"
  "void __cdecl foo_papad(char **)" = true.
Proof. vm_compute. reflexivity. Qed.
Example vec_0099 : v_sub 0 "?foo_papad@@YAXPEAPEAD@Z"
  "void __cdecl foo_papad(char **)" = true.
Proof. vm_compute. reflexivity. Qed.
Example vec_0100 : v_sub 0 "?foo_papbd@@YAXPAPBD@Z"
  "void __cdecl foo_papbd(char const **)" = true.
Proof. vm_compute. reflexivity. Qed.
Example vec_0101 : v_sub 0 "?foo_papbd@@YAXPEAPEBD@Z"
  "void __cdecl foo_papbd(char const **)" = true.
Proof. vm_compute. reflexivity. Qed.
Example vec_0102 : v_sub 0 "?foo_papcd@@YAXPAPCD@Z"
  "void __cdecl foo_papcd(char volatile **)" = true.
Proof. vm_compute. reflexivity. Qed.
Example vec_0103 : v_sub 0 "?foo_papcd@@YAXPEAPECD@Z"
  "void __cdecl foo_papcd(char volatile **)" = true.
Proof. vm_compute. reflexivity. Qed.
Example vec_0104 : v_sub 0 "?foo_pbqad@@YAXPBQAD@Z"
  "void __cdecl foo_pbqad(char *const *)" = true.
Proof. vm_compute. reflexivity. Qed.
Example vec_0105 : v_sub 0 "?foo_pbqad@@YAXPEBQEAD@Z"
  "void __cdecl foo_pbqad(char *const *)" = true.
Proof. vm_compute. reflexivity. Qed.
Example vec_0106 : v_sub 0 "?foo_pcrad@@YAXPCRAD@Z"
  "void __cdecl foo_pcrad(char *volatile *)" = true.
Proof. vm_compute. reflexivity. Qed.
Example vec_0107 : v_sub 0 "?foo_pcrad@@YAXPECREAD@Z"
  "void __cdecl foo_pcrad(char *volatile *)" = true.
Proof. vm_compute. reflexivity. Qed.
Example vec_0108 : v_sub 0 "?foo_qapad@@YAXQAPAD@Z"
  "void __cdecl foo_qapad(char **const)" = true.
Proof. vm_compute. reflexivity. Qed.
Example vec_0109 : v_sub 0 "?foo_qapad@@YAXQEAPEAD@Z"
  "void __cdecl foo_qapad(char **const)" = true.
Proof. vm_compute. reflexivity. Qed.
Example vec_0110 : v_sub 0 "?foo_rapad@@YAXRAPAD@Z"
  "void __cdecl foo_rapad(char **volatile)" = true.
Proof. vm_compute. reflexivity. Qed.
Example vec_0111 : v_sub 0 "?foo_rapad@@YAXREAPEAD@Z"
  "void __cdecl foo_rapad(char **volatile)" = true.
Proof. vm_compute. reflexivity. Qed.
Example vec_0112 : v_sub 0 "?foo_pbqbd@@YAXPBQBD@Z"
  "void __cdecl foo_pbqbd(char const *const *)" = true.
Proof. vm_compute. reflexivity. Qed.
Example vec_0113 : v_sub 0 "?foo_pbqbd@@YAXPEBQEBD@Z"
  "void __cdecl foo_pbqbd(char const *const *)" = true.
Proof. vm_compute. reflexivity. Qed.
Example vec_0114 : v_sub 0 "?foo_pbqcd@@YAXPBQCD@Z"
  "void __cdecl foo_pbqcd(char volatile *const *)" = true.
Proof. vm_compute. reflexivity. Qed.
Example vec_0115 : v_sub 0 "?foo_pbqcd@@YAXPEBQECD@Z"
  "void __cdecl foo_pbqcd(char volatile *const *)" = true.
Proof. vm_compute. reflexivity. Qed.
Example vec_0116 : v_sub 0 "?foo_pcrbd@@YAXPCRBD@Z"
  "void __cdecl foo_pcrbd(char const *volatile *)" = true.
Proof. vm_compute. reflexivity. Qed.
Example vec_0117 : v_sub 0 "?foo_pcrbd@@YAXPECREBD@Z"
  "void __cdecl foo_pcrbd(char const *volatile *)" = true.
Proof. vm_compute. reflexivity. Qed.
Example vec_0118 : v_sub 0 "?foo_pcrcd@@YAXPCRCD@Z"
  "void __cdecl foo_pcrcd(char volatile *volatile *)" = true.
Proof. vm_compute. reflexivity. Qed.
Example vec_0119 : v_sub 0 "?foo_pcrcd@@YAXPECRECD@Z"
  "void __cdecl foo_pcrcd(char volatile *volatile *)" = true.
Proof. vm_compute. reflexivity. Qed.
Example vec_0120 : v_sub 0 "?foo_aad@@YAXAAD@Z"
  "void __cdecl foo_aad(char &)" = true.
Proof. vm_compute. reflexivity. Qed.
Example vec_0121 : v_sub 0 "?foo_aad@@YAXAEAD@Z"
  "void __cdecl foo_aad(char &)" = true.
Proof. vm_compute. reflexivity. Qed.
Example vec_0122 : v_sub 0 "?foo_abd@@YAXABD@Z"
  "void __cdecl foo_abd(char const &)" = true.
Proof. vm_compute. reflexivity. Qed.
Example vec_0123 : v_sub 0 "?foo_abd@@YAXAEBD@Z"
  "void __cdecl foo_abd(char const &)" = true.
Proof. vm_compute. reflexivity. Qed.
Example vec_0124 : v_sub 0 "?foo_aapad@@YAXAAPAD@Z"
  "void __cdecl foo_aapad(char *&)" = true.
Proof. vm_compute. reflexivity. Qed.
Example vec_0125 : v_sub 0 "?foo_aapad@@YAXAEAPEAD@Z"
  "void __cdecl foo_aapad(char *&)" = true.
Proof. vm_compute. reflexivity. Qed.
Example vec_0126 : v_sub 0 "?foo_aapbd@@YAXAAPBD@Z"
  "void __cdecl foo_aapbd(char const *&)" = true.
Proof. vm_compute. reflexivity. Qed.
Example vec_0127 : v_sub 0 "?foo_aapbd@@YAXAEAPEBD@Z"
  "void __cdecl foo_aapbd(char const *&)" = true.
Proof. vm_compute. reflexivity. Qed.
Example vec_0128 : v_sub 0 "?foo_abqad@@YAXABQAD@Z"
  "void __cdecl foo_abqad(char *const &)" = true.
Proof. vm_compute. reflexivity. Qed.
Example vec_0129 : v_sub 0 "?foo_abqad@@YAXAEBQEAD@Z"
  "void __cdecl foo_abqad(char *const &)" = true.
Proof. vm_compute. reflexivity. Qed.
Example vec_0130 : v_sub 0 "?foo_abqbd@@YAXABQBD@Z"
  "void __cdecl foo_abqbd(char const *const &)" = true.
Proof. vm_compute. reflexivity. Qed.
Example vec_0131 : v_sub 0 "?foo_abqbd@@YAXAEBQEBD@Z"
  "void __cdecl foo_abqbd(char const *const &)" = true.
Proof. vm_compute. reflexivity. Qed.
Example vec_0132 : v_sub 0 "?foo_aay144h@@YAXAAY144H@Z"
  "void __cdecl foo_aay144h(int (&)[5][5])" = true.
Proof. vm_compute. reflexivity. Qed.
Example vec_0133 : v_sub 0 "?foo_aay144h@@YAXAEAY144H@Z"
  "void __cdecl foo_aay144h(int (&)[5][5])" = true.
Proof. vm_compute. reflexivity. Qed.
Example vec_0134 : v_sub 0 "?foo_aay144cbh@@YAXAAY144$$CBH@Z"
  "void __cdecl foo_aay144cbh(int const (&)[5][5])" = true.
Proof. vm_compute. reflexivity. Qed.
Example vec_0135 : v_sub 0 "?foo_aay144cbh@@YAXAEAY144$$CBH@Z"
  "void __cdecl foo_aay144cbh(int const (&)[5][5])" = true.
Proof. vm_compute. reflexivity. Qed.
Example vec_0136 : v_sub 0 "?foo_qay144h@@YAX$$QAY144H@Z"
  "void __cdecl foo_qay144h(int (&&)[5][5])" = true.
Proof. vm_compute. reflexivity. Qed.
Example vec_0137 : v_sub 0 "?foo_qay144h@@YAX$$QEAY144H@Z"
  "void __cdecl foo_qay144h(int (&&)[5][5])" = true.
Proof. vm_compute. reflexivity. Qed.
Example vec_0138 : v_sub 0 "?foo_qay144cbh@@YAX$$QAY144$$CBH@Z"
  "void __cdecl foo_qay144cbh(int const (&&)[5][5])" = true.
Proof. vm_compute. reflexivity. Qed.
Example vec_0139 : v_sub 0 "?foo_qay144cbh@@YAX$$QEAY144$$CBH@Z"
  "void __cdecl foo_qay144cbh(int const (&&)[5][5])" = true.
Proof. vm_compute. reflexivity. Qed.
Example vec_0140 : v_sub 0 "?foo_p6ahxz@@YAXP6AHXZ@Z"
  "void __cdecl foo_p6ahxz(int (__cdecl *)(void))" = true.
Proof. vm_compute. reflexivity. Qed.
Example vec_0141 : v_sub 0 "?foo_p6ahxz@@YAXP6AHXZ@Z"
  "void __cdecl foo_p6ahxz(int (__cdecl *)(void))" = true.
Proof. vm_compute. reflexivity. Qed.
Example vec_0142 : v_sub 0 "?foo_a6ahxz@@YAXA6AHXZ@Z"
  "void __cdecl foo_a6ahxz(int (__cdecl &)(void))" = true.
Proof. vm_compute. reflexivity. Qed.
Example vec_0143 : v_sub 0 "?foo_a6ahxz@@YAXA6AHXZ@Z"
  "void __cdecl foo_a6ahxz(int (__cdecl &)(void))" = true.
Proof. vm_compute. reflexivity. Qed.
Example vec_0144 : v_sub 0 "?foo_q6ahxz@@YAX$$Q6AHXZ@Z"
  "void __cdecl foo_q6ahxz(int (__cdecl &&)(void))" = true.
Proof. vm_compute. reflexivity. Qed.
Example vec_0145 : v_sub 0 "?foo_q6ahxz@@YAX$$Q6AHXZ@Z"
  "void __cdecl foo_q6ahxz(int (__cdecl &&)(void))" = true.
Proof. vm_compute. reflexivity. Qed.
Example vec_0146 : v_sub 0 "?foo_qay04h@@YAXQAY04H@Z"
  "void __cdecl foo_qay04h(int (*const)[5])" = true.
Proof. vm_compute. reflexivity. Qed.
Example vec_0147 : v_sub 0 "?foo_qay04h@@YAXQEAY04H@Z"
  "void __cdecl foo_qay04h(int (*const)[5])" = true.
Proof. vm_compute. reflexivity. Qed.
Example vec_0148 : v_sub 0 "?foo_qay04cbh@@YAXQAY04$$CBH@Z"
  "void __cdecl foo_qay04cbh(int const (*const)[5])" = true.
Proof. vm_compute. reflexivity. Qed.
Example vec_0149 : v_sub 0 "?foo_qay04cbh@@YAXQEAY04$$CBH@Z"
  "void __cdecl foo_qay04cbh(int const (*const)[5])" = true.
Proof. vm_compute. reflexivity. Qed.
Example vec_0150 : v_sub 0 "?foo@@YAXPAY02N@Z"
  "void __cdecl foo(double (*)[3])" = true.
Proof. vm_compute. reflexivity. Qed.
Example vec_0151 : v_sub 0 "?foo@@YAXPEAY02N@Z"
  "void __cdecl foo(double (*)[3])" = true.
Proof. vm_compute. reflexivity. Qed.
Example vec_0152 : v_sub 0 "?foo@@YAXQAN@Z"
  "void __cdecl foo(double *const)" = true.
Proof. vm_compute. reflexivity. Qed.
Example vec_0153 : v_sub 0 "?foo@@YAXQEAN@Z"
  "void __cdecl foo(double *const)" = true.
Proof. vm_compute. reflexivity. Qed.
Example vec_0154 : v_sub 0 "?foo_const@@YAXQBN@Z"
  "void __cdecl foo_const(double const *const)" = true.
Proof. vm_compute. reflexivity. Qed.
Example vec_0155 : v_sub 0 "?foo_const@@YAXQEBN@Z"
  "void __cdecl foo_const(double const *const)" = true.
Proof. vm_compute. reflexivity. Qed.
Example vec_0156 : v_sub 0 "?foo_volatile@@YAXQCN@Z"
  "void __cdecl foo_volatile(double volatile *const)" = true.
Proof. vm_compute. reflexivity. Qed.
Example vec_0157 : v_sub 0 "?foo_volatile@@YAXQECN@Z"
  "void __cdecl foo_volatile(double volatile *const)" = true.
Proof. vm_compute. reflexivity. Qed.
Example vec_0158 : v_sub 0 "?foo@@YAXPAY02NQBNN@Z"
  "void __cdecl foo(double (*)[3], double const *const, double)" = true.
Proof. vm_compute. reflexivity. Qed.
Example vec_0159 : v_sub 0 "?foo@@YAXPEAY02NQEBNN@Z"
  "void __cdecl foo(double (*)[3], double const *const, double)" = true.
Proof. vm_compute. reflexivity. Qed.
Example vec_0160 : v_sub 0 "?foo_fnptrconst@@YAXP6AXQAH@Z@Z"
  "void __cdecl foo_fnptrconst(void (__cdecl *)(int *const))" = true.
Proof. vm_compute. reflexivity. Qed.
Example vec_0161 : v_sub 0 "?foo_fnptrconst@@YAXP6AXQEAH@Z@Z"
  "void __cdecl foo_fnptrconst(void (__cdecl *)(int *const))" = true.
Proof. vm_compute. reflexivity. Qed.
Example vec_0162 : v_sub 0 "?foo_fnptrarray@@YAXP6AXQAH@Z@Z"
  "void __cdecl foo_fnptrarray(void (__cdecl *)(int *const))" = true.
Proof. vm_compute. reflexivity. Qed.
Example vec_0163 : v_sub 0 "?foo_fnptrarray@@YAXP6AXQEAH@Z@Z"
  "void __cdecl foo_fnptrarray(void (__cdecl *)(int *const))" = true.
Proof. vm_compute. reflexivity. Qed.
Example vec_0164 : v_sub 0 "?foo_fnptrbackref1@@YAXP6AXQAH@Z1@Z"
  "void __cdecl foo_fnptrbackref1(void (__cdecl *)(int *const), void (__cdecl *)(int *const))" = true.
Proof. vm_compute. reflexivity. Qed.
Example vec_0165 : v_sub 0 "?foo_fnptrbackref1@@YAXP6AXQEAH@Z1@Z"
  "void __cdecl foo_fnptrbackref1(void (__cdecl *)(int *const), void (__cdecl *)(int *const))" = true.
Proof. vm_compute. reflexivity. Qed.
Example vec_0166 : v_sub 0 "?foo_fnptrbackref2@@YAXP6AXQAH@Z1@Z"
  "void __cdecl foo_fnptrbackref2(void (__cdecl *)(int *const), void (__cdecl *)(int *const))" = true.
Proof. vm_compute. reflexivity. Qed.
Example vec_0167 : v_sub 0 "?foo_fnptrbackref2@@YAXP6AXQEAH@Z1@Z"
  "void __cdecl foo_fnptrbackref2(void (__cdecl *)(int *const), void (__cdecl *)(int *const))" = true.
Proof. vm_compute. reflexivity. Qed.
Example vec_0168 : v_sub 0 "?foo_fnptrbackref3@@YAXP6AXQAH@Z1@Z"
  "void __cdecl foo_fnptrbackref3(void (__cdecl *)(int *const), void (__cdecl *)(int *const))" = true.
Proof. vm_compute. reflexivity. Qed.
Example vec_0169 : v_sub 0 "?foo_fnptrbackref3@@YAXP6AXQEAH@Z1@Z"
  "void __cdecl foo_fnptrbackref3(void (__cdecl *)(int *const), void (__cdecl *)(int *const))" = true.
Proof. vm_compute. reflexivity. Qed.
Example vec_0170 : v_sub 0 "?foo_fnptrbackref4@@YAXP6AXPAH@Z1@Z"
  "void __cdecl foo_fnptrbackref4(void (__cdecl *)(int *), void (__cdecl *)(int *))" = true.
Proof. vm_compute. reflexivity. Qed.
Example vec_0171 : v_sub 0 "?foo_fnptrbackref4@@YAXP6AXPEAH@Z1@Z"
  "void __cdecl foo_fnptrbackref4(void (__cdecl *)(int *), void (__cdecl *)(int *))" = true.
Proof. vm_compute. reflexivity. Qed.
Example vec_0172 : v_sub 0 "?ret_fnptrarray@@YAP6AXQAH@ZXZ"
  "void (__cdecl * __cdecl ret_fnptrarray(void))(int *const)" = true.
Proof. vm_compute. reflexivity. Qed.
Example vec_0173 : v_sub 0 "?ret_fnptrarray@@YAP6AXQEAH@ZXZ"
  "void (__cdecl * __cdecl ret_fnptrarray(void))(int *const)" = true.
Proof. vm_compute. reflexivity. Qed.
Example vec_0174 : v_sub 0 "?mangle_no_backref0@@YAXQAHPAH@Z"
  "void __cdecl mangle_no_backref0(int *const, int *)" = true.
Proof. vm_compute. reflexivity. Qed.
Example vec_0175 : v_sub 0 "?mangle_no_backref0@@YAXQEAHPEAH@Z"
  "void __cdecl mangle_no_backref0(int *const, int *)" = true.
Proof. vm_compute. reflexivity. Qed.
Example vec_0176 : v_sub 0 "?mangle_no_backref1@@YAXQAHQAH@Z"
  "void __cdecl mangle_no_backref1(int *const, int *const)" = true.
Proof. vm_compute. reflexivity. Qed.
Example vec_0177 : v_sub 0 "?mangle_no_backref1@@YAXQEAHQEAH@Z"
  "void __cdecl mangle_no_backref1(int *const, int *const)" = true.
Proof. vm_compute. reflexivity. Qed.
Example vec_0178 : v_sub 0 "?mangle_no_backref2@@YAXP6AXXZP6AXXZ@Z"
  "void __cdecl mangle_no_backref2(void (__cdecl *)(void), void (__cdecl *)(void))" = true.
Proof. vm_compute. reflexivity. Qed.
Example vec_0179 : v_sub 0 "?mangle_no_backref2@@YAXP6AXXZP6AXXZ@Z"
  "void __cdecl mangle_no_backref2(void (__cdecl *)(void), void (__cdecl *)(void))" = true.
Proof. vm_compute. reflexivity. Qed.
Example vec_0180 : v_sub 0 "?mangle_yes_backref0@@YAXQAH0@Z"
  "void __cdecl mangle_yes_backref0(int *const, int *const)" = true.
Proof. vm_compute. reflexivity. Qed.
Example vec_0181 : v_sub 0 "?mangle_yes_backref0@@YAXQEAH0@Z"
  "void __cdecl mangle_yes_backref0(int *const, int *const)" = true.
Proof. vm_compute. reflexivity. Qed.
Example vec_0182 : v_sub 0 "?mangle_yes_backref1@@YAXQAH0@Z"
  "void __cdecl mangle_yes_backref1(int *const, int *const)" = true.
Proof. vm_compute. reflexivity. Qed.
Example vec_0183 : v_sub 0 "?mangle_yes_backref1@@YAXQEAH0@Z"
  "void __cdecl mangle_yes_backref1(int *const, int *const)" = true.
Proof. vm_compute. reflexivity. Qed.
Example vec_0184 : v_sub 0 "?mangle_yes_backref2@@YAXQBQ6AXXZ0@Z"
  "void __cdecl mangle_yes_backref2(void (__cdecl *const *const)(void), void (__cdecl *const *const)(void))" = true.
Proof. vm_compute. reflexivity. Qed.
Example vec_0185 : v_sub 0 "?mangle_yes_backref2@@YAXQEBQ6AXXZ0@Z"
  "void __cdecl mangle_yes_backref2(void (__cdecl *const *const)(void), void (__cdecl *const *const)(void))" = true.
Proof. vm_compute. reflexivity. Qed.
Example vec_0186 : v_sub 0 "?mangle_yes_backref3@@YAXQAP6AXXZ0@Z"
  "void __cdecl mangle_yes_backref3(void (__cdecl **const)(void), void (__cdecl **const)(void))" = true.
Proof. vm_compute. reflexivity. Qed.
Example vec_0187 : v_sub 0 "?mangle_yes_backref3@@YAXQEAP6AXXZ0@Z"
  "void __cdecl mangle_yes_backref3(void (__cdecl **const)(void), void (__cdecl **const)(void))" = true.
Proof. vm_compute. reflexivity. Qed.
Example vec_0188 : v_sub 0 "?mangle_yes_backref4@@YAXQIAH0@Z"
  "void __cdecl mangle_yes_backref4(int *const __restrict, int *const __restrict)" = true.
Proof. vm_compute. reflexivity. Qed.
Example vec_0189 : v_sub 0 "?mangle_yes_backref4@@YAXQEIAH0@Z"
  "void __cdecl mangle_yes_backref4(int *const __restrict, int *const __restrict)" = true.
Proof. vm_compute. reflexivity. Qed.
Example vec_0190 : v_sub 0 "?pr23325@@YAXQBUS@@0@Z"
  "void __cdecl pr23325(struct S const *const, struct S const *const)" = true.
Proof. vm_compute. reflexivity. Qed.
Example vec_0191 : v_sub 0 "?pr23325@@YAXQEBUS@@0@Z"
  "void __cdecl pr23325(struct S const *const, struct S const *const)" = true.
Proof. vm_compute. reflexivity. Qed.
Example vec_0192 : v_sub 0 "??0?$AutoNTTPClass@$MPEAH1?i@@3HA@@QEAA@XZ"
  "public: __cdecl AutoNTTPClass<&int i>::AutoNTTPClass<&int i>(void)" = true.
Proof. vm_compute. reflexivity. Qed.
Example vec_0193 : v_sub 0 "??0?$AutoNTTPClass@$1?i@@3HA@@QEAA@XZ"
  "public: __cdecl AutoNTTPClass<&int i>::AutoNTTPClass<&int i>(void)" = true.
Proof. vm_compute. reflexivity. Qed.
Example vec_0194 : v_sub 0 "??0?$AutoNTTPClass@$MPEAH1?i@@3HA$MPEAH1?j@@3HA@@QEAA@XZ"
  "public: __cdecl AutoNTTPClass<&int i, &int j>::AutoNTTPClass<&int i, &int j>(void)" = true.
Proof. vm_compute. reflexivity. Qed.
Example vec_0195 : v_sub 0 "??0?$AutoNTTPClass@$1?i@@3HA$1?j@@3HA@@QEAA@XZ"
  "public: __cdecl AutoNTTPClass<&int i, &int j>::AutoNTTPClass<&int i, &int j>(void)" = true.
Proof. vm_compute. reflexivity. Qed.
Example vec_0196 : v_sub 0 "??0?$AutoNTTPClass@$MP6AHXZ1?Func@@YAHXZ@@QEAA@XZ"
  "public: __cdecl AutoNTTPClass<&int __cdecl Func(void)>::AutoNTTPClass<&int __cdecl Func(void)>(void)" = true.
Proof. vm_compute. reflexivity. Qed.
Example vec_0197 : v_sub 0 "??0?$AutoNTTPClass@$1?Func@@YAHXZ@@QEAA@XZ"
  "public: __cdecl AutoNTTPClass<&int __cdecl Func(void)>::AutoNTTPClass<&int __cdecl Func(void)>(void)" = true.
Proof. vm_compute. reflexivity. Qed.
Example vec_0198 : v_sub 0 "??0?$AutoNTTPClass@$MP6AHXZ1?Func@@YAHXZ$MP6AHXZ1?Func2@@YAHXZ@@QEAA@XZ"
  "public: __cdecl AutoNTTPClass<&int __cdecl Func(void), &int __cdecl Func2(void)>::AutoNTTPClass<&int __cdecl Func(void), &int __cdecl Func2(void)>(void)" = true.
Proof. vm_compute. reflexivity. Qed.
Example vec_0199 : v_sub 0 "??0?$AutoNTTPClass@$1?Func@@YAHXZ$1?Func2@@YAHXZ@@QEAA@XZ"
  "public: __cdecl AutoNTTPClass<&int __cdecl Func(void), &int __cdecl Func2(void)>::AutoNTTPClass<&int __cdecl Func(void), &int __cdecl Func2(void)>(void)" = true.
Proof. vm_compute. reflexivity. Qed.
Example vec_0200 : v_sub 0 "??$AutoFunc@$MPEAH1?i@@3HA@@YA?A?<auto>@@XZ"
  "<auto> __cdecl AutoFunc<&int i>(void)" = true.
Proof. vm_compute. reflexivity. Qed.
Example vec_0201 : v_sub 0 "??$AutoFunc@$1?i@@3HA@@YA?A?<auto>@@XZ"
  "<auto> __cdecl AutoFunc<&int i>(void)" = true.
Proof. vm_compute. reflexivity. Qed.
Example vec_0202 : v_sub 0 "??$AutoFunc@$MP6AHXZ1?Func@@YAHXZ@@YA?A?<auto>@@XZ"
  "<auto> __cdecl AutoFunc<&int __cdecl Func(void)>(void)" = true.
Proof. vm_compute. reflexivity. Qed.
Example vec_0203 : v_sub 0 "??$AutoFunc@$1?Func@@YAHXZ@@YA?A?<auto>@@XZ"
  "<auto> __cdecl AutoFunc<&int __cdecl Func(void)>(void)" = true.
Proof. vm_compute. reflexivity. Qed.
Example vec_0204 : v_sub 0 "??$AutoFunc@$MH00@@YA?A?<auto>@@XZ"
  "<auto> __cdecl AutoFunc<1>(void)" = true.
Proof. vm_compute. reflexivity. Qed.
Example vec_0205 : v_sub 0 "??$AutoFunc@$00@@YA?A?<auto>@@XZ"
  "<auto> __cdecl AutoFunc<1>(void)" = true.
Proof. vm_compute. reflexivity. Qed.
Example vec_0206 : v_sub 0 "??0?$AutoNTTPClass@$0A@@@QEAA@XZ"
  "public: __cdecl AutoNTTPClass<0>::AutoNTTPClass<0>(void)" = true.
Proof. vm_compute. reflexivity. Qed.
Example vec_0207 : v_sub 0 "??0?$AutoNTTPClass@$MH0A@@@QEAA@XZ"
  "public: __cdecl AutoNTTPClass<0>::AutoNTTPClass<0>(void)" = true.
Proof. vm_compute. reflexivity. Qed.
Example vec_0208 : v_sub 0 "??0?$AutoNTTPClass@$0A@$0A@$0GB@@@QEAA@XZ"
  "public: __cdecl AutoNTTPClass<0, 0, 97>::AutoNTTPClass<0, 0, 97>(void)" = true.
Proof. vm_compute. reflexivity. Qed.
Example vec_0209 : v_sub 0 "??0?$AutoNTTPClass@$MH0A@$M_N0A@$MD0GB@@@QEAA@XZ"
  "public: __cdecl AutoNTTPClass<0, 0, 97>::AutoNTTPClass<0, 0, 97>(void)" = true.
Proof. vm_compute. reflexivity. Qed.
Example vec_0210 : v_sub 0 "??0?$AutoNTTPClass@$M$$T0A@@@QEAA@XZ"
  "public: __cdecl AutoNTTPClass<0>::AutoNTTPClass<0>(void)" = true.
Proof. vm_compute. reflexivity. Qed.
Example vec_0211 : v_sub 0 "??0?$AutoNTTPClass@$0A@@@QEAA@XZ"
  "public: __cdecl AutoNTTPClass<0>::AutoNTTPClass<0>(void)" = true.
Proof. vm_compute. reflexivity. Qed.
Example vec_0212 : v_sub 0 "??0?$AutoNTTPClass@$MP8S@@EAAXXZ1?f@1@QEAAXXZ@@QEAA@XZ"
  "public: __cdecl AutoNTTPClass<&public: void __cdecl S::f(void)>::AutoNTTPClass<&public: void __cdecl S::f(void)>(void)" = true.
Proof. vm_compute. reflexivity. Qed.
Example vec_0213 : v_sub 0 "??0?$AutoNTTPClass@$1?f@S@@QEAAXXZ@@QEAA@XZ"
  "public: __cdecl AutoNTTPClass<&public: void __cdecl S::f(void)>::AutoNTTPClass<&public: void __cdecl S::f(void)>(void)" = true.
Proof. vm_compute. reflexivity. Qed.
Example vec_0214 : v_sub 0 "??0?$AutoNTTPClass@$MP8M@@EAAXXZH?f@1@QEAAXXZA@@@QEAA@XZ"
  "public: __cdecl AutoNTTPClass<{public: void __cdecl M::f(void), 0}>::AutoNTTPClass<{public: void __cdecl M::f(void), 0}>(void)" = true.
Proof. vm_compute. reflexivity. Qed.
Example vec_0215 : v_sub 0 "??0?$AutoNTTPClass@$H?f@M@@QEAAXXZA@@@QEAA@XZ"
  "public: __cdecl AutoNTTPClass<{public: void __cdecl M::f(void), 0}>::AutoNTTPClass<{public: void __cdecl M::f(void), 0}>(void)" = true.
Proof. vm_compute. reflexivity. Qed.
Example vec_0216 : v_sub 0 "??0?$AutoNTTPClass@$MP8V@@EAAXXZI?f@1@QEAAXXZA@A@@@QEAA@XZ"
  "public: __cdecl AutoNTTPClass<{public: void __cdecl V::f(void), 0, 0}>::AutoNTTPClass<{public: void __cdecl V::f(void), 0, 0}>(void)" = true.
Proof. vm_compute. reflexivity. Qed.
Example vec_0217 : v_sub 0 "??0?$AutoNTTPClass@$I?f@V@@QEAAXXZA@A@@@QEAA@XZ"
  "public: __cdecl AutoNTTPClass<{public: void __cdecl V::f(void), 0, 0}>::AutoNTTPClass<{public: void __cdecl V::f(void), 0, 0}>(void)" = true.
Proof. vm_compute. reflexivity. Qed.
Example vec_0218 : v_sub 0 "??0?$AutoNTTPClass@$MPEQS@@H07@@QEAA@XZ"
  "public: __cdecl AutoNTTPClass<8>::AutoNTTPClass<8>(void)" = true.
Proof. vm_compute. reflexivity. Qed.
Example vec_0219 : v_sub 0 "??0?$AutoNTTPClass@$07@@QEAA@XZ"
  "public: __cdecl AutoNTTPClass<8>::AutoNTTPClass<8>(void)" = true.
Proof. vm_compute. reflexivity. Qed.
Example vec_0220 : v_sub 0 "??0?$AutoNTTPClass@$MPEQM@@H0M@@@QEAA@XZ"
  "public: __cdecl AutoNTTPClass<12>::AutoNTTPClass<12>(void)" = true.
Proof. vm_compute. reflexivity. Qed.
Example vec_0221 : v_sub 0 "??0?$AutoNTTPClass@$0M@@@QEAA@XZ"
  "public: __cdecl AutoNTTPClass<12>::AutoNTTPClass<12>(void)" = true.
Proof. vm_compute. reflexivity. Qed.
Example vec_0222 : v_sub 0 "??0?$AutoNTTPClass@$MPEQV@@HFBA@A@@@QEAA@XZ"
  "public: __cdecl AutoNTTPClass<{16, 0}>::AutoNTTPClass<{16, 0}>(void)" = true.
Proof. vm_compute. reflexivity. Qed.
Example vec_0223 : v_sub 0 "??0?$AutoNTTPClass@$FBA@A@@@QEAA@XZ"
  "public: __cdecl AutoNTTPClass<{16, 0}>::AutoNTTPClass<{16, 0}>(void)" = true.
Proof. vm_compute. reflexivity. Qed.
Example vec_0224 : v_sub 0 "?f1@@YAXPBD0@Z"
  "void __cdecl f1(char const *, char const *)" = true.
Proof. vm_compute. reflexivity. Qed.
Example vec_0225 : v_sub 0 "?f2@@YAXPBDPAD@Z"
  "void __cdecl f2(char const *, char *)" = true.
Proof. vm_compute. reflexivity. Qed.
Example vec_0226 : v_sub 0 "?f3@@YAXHPBD0@Z"
  "void __cdecl f3(int, char const *, char const *)" = true.
Proof. vm_compute. reflexivity. Qed.
Example vec_0227 : v_sub 0 "?f4@@YAPBDPBD0@Z"
  "char const * __cdecl f4(char const *, char const *)" = true.
Proof. vm_compute. reflexivity. Qed.
Example vec_0228 : v_sub 0 "?f5@@YAXPBDIDPBX0I@Z"
  "void __cdecl f5(char const *, unsigned int, char, void const *, char const *, unsigned int)" = true.
Proof. vm_compute. reflexivity. Qed.
Example vec_0229 : v_sub 0 "?f6@@YAX_N0@Z"
  "void __cdecl f6(bool, bool)" = true.
Proof. vm_compute. reflexivity. Qed.
Example vec_0230 : v_sub 0 "?f7@@YAXHPAHH0_N1PA_N@Z"
  "void __cdecl f7(int, int *, int, int *, bool, bool, bool *)" = true.
Proof. vm_compute. reflexivity. Qed.
Example vec_0231 : v_sub 0 "?g1@@YAXUS@@@Z"
  "void __cdecl g1(struct S)" = true.
Proof. vm_compute. reflexivity. Qed.
Example vec_0232 : v_sub 0 "?g2@@YAXUS@@0@Z"
  "void __cdecl g2(struct S, struct S)" = true.
Proof. vm_compute. reflexivity. Qed.
Example vec_0233 : v_sub 0 "?g3@@YAXUS@@0PAU1@1@Z"
  "void __cdecl g3(struct S, struct S, struct S *, struct S *)" = true.
Proof. vm_compute. reflexivity. Qed.
Example vec_0234 : v_sub 0 "?g4@@YAXPBDPAUS@@01@Z"
  "void __cdecl g4(char const *, struct S *, char const *, struct S *)" = true.
Proof. vm_compute. reflexivity. Qed.
Example vec_0235 : v_sub 0 "?mbb@S@@QAEX_N0@Z"
  "void __thiscall S::mbb(bool, bool)" = true.
Proof. vm_compute. reflexivity. Qed.
Example vec_0236 : v_sub 0 "?h1@@YAXPBD0P6AXXZ1@Z"
  "void __cdecl h1(char const *, char const *, void (__cdecl *)(void), void (__cdecl *)(void))" = true.
Proof. vm_compute. reflexivity. Qed.
Example vec_0237 : v_sub 0 "?h2@@YAXP6AXPAX@Z0@Z"
  "void __cdecl h2(void (__cdecl *)(void *), void *)" = true.
Proof. vm_compute. reflexivity. Qed.
Example vec_0238 : v_sub 0 "?h3@@YAP6APAHPAH0@ZP6APAH00@Z10@Z"
  "int * (__cdecl * __cdecl h3(int * (__cdecl *)(int *, int *), int * (__cdecl *)(int *, int *), int *))(int *, int *)" = true.
Proof. vm_compute. reflexivity. Qed.
Example vec_0239 : v_sub 0 "?foo@0@YAXXZ"
  "void __cdecl foo::foo(void)" = true.
Proof. vm_compute. reflexivity. Qed.
Example vec_0240 : v_sub 0 "??$?HH@S@@QEAAAEAU0@H@Z"
  "struct S & __cdecl S::operator+<int>(int)" = true.
Proof. vm_compute. reflexivity. Qed.
Example vec_0241 : v_sub 0 "?foo_abbb@@YAXV?$A@V?$B@D@@V1@V1@@@@Z"
  "void __cdecl foo_abbb(class A<class B<char>, class B<char>, class B<char>>)" = true.
Proof. vm_compute. reflexivity. Qed.
Example vec_0242 : v_sub 0 "?foo_abb@@YAXV?$A@DV?$B@D@@V1@@@@Z"
  "void __cdecl foo_abb(class A<char, class B<char>, class B<char>>)" = true.
Proof. vm_compute. reflexivity. Qed.
Example vec_0243 : v_sub 0 "?foo_abc@@YAXV?$A@DV?$B@D@@V?$C@D@@@@@Z"
  "void __cdecl foo_abc(class A<char, class B<char>, class C<char>>)" = true.
Proof. vm_compute. reflexivity. Qed.
Example vec_0244 : v_sub 0 "?foo_bt@@YAX_NV?$B@$$A6A_N_N@Z@@@Z"
  "void __cdecl foo_bt(bool, class B<bool __cdecl(bool)>)" = true.
Proof. vm_compute. reflexivity. Qed.
Example vec_0245 : v_sub 0 "?foo_abbb@@YAXV?$A@V?$B@D@N@@V12@V12@@N@@@Z"
  "void __cdecl foo_abbb(class N::A<class N::B<char>, class N::B<char>, class N::B<char>>)" = true.
Proof. vm_compute. reflexivity. Qed.
Example vec_0246 : v_sub 0 "?foo_abb@@YAXV?$A@DV?$B@D@N@@V12@@N@@@Z"
  "void __cdecl foo_abb(class N::A<char, class N::B<char>, class N::B<char>>)" = true.
Proof. vm_compute. reflexivity. Qed.
Example vec_0247 : v_sub 0 "?foo_abc@@YAXV?$A@DV?$B@D@N@@V?$C@D@2@@N@@@Z"
  "void __cdecl foo_abc(class N::A<char, class N::B<char>, class N::C<char>>)" = true.
Proof. vm_compute. reflexivity. Qed.
Example vec_0248 : v_sub 0 "?abc_foo@@YA?AV?$A@DV?$B@D@N@@V?$C@D@2@@N@@XZ"
  "class N::A<char, class N::B<char>, class N::C<char>> __cdecl abc_foo(void)" = true.
Proof. vm_compute. reflexivity. Qed.
Example vec_0249 : v_sub 0 "?z_foo@@YA?AVZ@N@@V12@@Z"
  "class N::Z __cdecl z_foo(class N::Z)" = true.
Proof. vm_compute. reflexivity. Qed.
Example vec_0250 : v_sub 0 "?b_foo@@YA?AV?$B@D@N@@V12@@Z"
  "class N::B<char> __cdecl b_foo(class N::B<char>)" = true.
Proof. vm_compute. reflexivity. Qed.
Example vec_0251 : v_sub 0 "?d_foo@@YA?AV?$D@DD@N@@V12@@Z"
  "class N::D<char, char> __cdecl d_foo(class N::D<char, char>)" = true.
Proof. vm_compute. reflexivity. Qed.
Example vec_0252 : v_sub 0 "?abc_foo_abc@@YA?AV?$A@DV?$B@D@N@@V?$C@D@2@@N@@V12@@Z"
  "class N::A<char, class N::B<char>, class N::C<char>> __cdecl abc_foo_abc(class N::A<char, class N::B<char>, class N::C<char>>)" = true.
Proof. vm_compute. reflexivity. Qed.
Example vec_0253 : v_sub 0 "?foo5@@YAXV?$Y@V?$Y@V?$Y@V?$Y@VX@NA@@@NB@@@NA@@@NB@@@NA@@@Z"
  "void __cdecl foo5(class NA::Y<class NB::Y<class NA::Y<class NB::Y<class NA::X>>>>)" = true.
Proof. vm_compute. reflexivity. Qed.
Example vec_0254 : v_sub 0 "?foo11@@YAXV?$Y@VX@NA@@@NA@@V1NB@@@Z"
  "void __cdecl foo11(class NA::Y<class NA::X>, class NB::Y<class NA::X>)" = true.
Proof. vm_compute. reflexivity. Qed.
Example vec_0255 : v_sub 0 "?foo112@@YAXV?$Y@VX@NA@@@NA@@V?$Y@VX@NB@@@NB@@@Z"
  "void __cdecl foo112(class NA::Y<class NA::X>, class NB::Y<class NB::X>)" = true.
Proof. vm_compute. reflexivity. Qed.
Example vec_0256 : v_sub 0 "?foo22@@YAXV?$Y@V?$Y@VX@NA@@@NB@@@NA@@V?$Y@V?$Y@VX@NA@@@NA@@@NB@@@Z"
  "void __cdecl foo22(class NA::Y<class NB::Y<class NA::X>>, class NB::Y<class NA::Y<class NA::X>>)" = true.
Proof. vm_compute. reflexivity. Qed.
Example vec_0257 : v_sub 0 "?foo@L@PR13207@@QAEXV?$I@VA@PR13207@@@2@@Z"
  "void __thiscall PR13207::L::foo(class PR13207::I<class PR13207::A>)" = true.
Proof. vm_compute. reflexivity. Qed.
Example vec_0258 : v_sub 0 "?foo@PR13207@@YAXV?$I@VA@PR13207@@@1@@Z"
  "void __cdecl PR13207::foo(class PR13207::I<class PR13207::A>)" = true.
Proof. vm_compute. reflexivity. Qed.
Example vec_0259 : v_sub 0 "?foo2@PR13207@@YAXV?$I@VA@PR13207@@@1@0@Z"
  "void __cdecl PR13207::foo2(class PR13207::I<class PR13207::A>, class PR13207::I<class PR13207::A>)" = true.
Proof. vm_compute. reflexivity. Qed.
Example vec_0260 : v_sub 0 "?bar@PR13207@@YAXV?$J@VA@PR13207@@VB@2@@1@@Z"
  "void __cdecl PR13207::bar(class PR13207::J<class PR13207::A, class PR13207::B>)" = true.
Proof. vm_compute. reflexivity. Qed.
Example vec_0261 : v_sub 0 "?spam@PR13207@@YAXV?$K@VA@PR13207@@VB@2@VC@2@@1@@Z"
  "void __cdecl PR13207::spam(class PR13207::K<class PR13207::A, class PR13207::B, class PR13207::C>)" = true.
Proof. vm_compute. reflexivity. Qed.
Example vec_0262 : v_sub 0 "?baz@PR13207@@YAXV?$K@DV?$F@D@PR13207@@V?$I@D@2@@1@@Z"
  "void __cdecl PR13207::baz(class PR13207::K<char, class PR13207::F<char>, class PR13207::I<char>>)" = true.
Proof. vm_compute. reflexivity. Qed.
Example vec_0263 : v_sub 0 "?qux@PR13207@@YAXV?$K@DV?$I@D@PR13207@@V12@@1@@Z"
  "void __cdecl PR13207::qux(class PR13207::K<char, class PR13207::I<char>, class PR13207::I<char>>)" = true.
Proof. vm_compute. reflexivity. Qed.
Example vec_0264 : v_sub 0 "?foo@NA@PR13207@@YAXV?$Y@VX@NA@PR13207@@@12@@Z"
  "void __cdecl PR13207::NA::foo(class PR13207::NA::Y<class PR13207::NA::X>)" = true.
Proof. vm_compute. reflexivity. Qed.
Example vec_0265 : v_sub 0 "?foofoo@NA@PR13207@@YAXV?$Y@V?$Y@VX@NA@PR13207@@@NA@PR13207@@@12@@Z"
  "void __cdecl PR13207::NA::foofoo(class PR13207::NA::Y<class PR13207::NA::Y<class PR13207::NA::X>>)" = true.
Proof. vm_compute. reflexivity. Qed.
Example vec_0266 : v_sub 0 "?foo@NB@PR13207@@YAXV?$Y@VX@NA@PR13207@@@12@@Z"
  "void __cdecl PR13207::NB::foo(class PR13207::NB::Y<class PR13207::NA::X>)" = true.
Proof. vm_compute. reflexivity. Qed.
Example vec_0267 : v_sub 0 "?bar@NB@PR13207@@YAXV?$Y@VX@NB@PR13207@@@NA@2@@Z"
  "void __cdecl PR13207::NB::bar(class PR13207::NA::Y<class PR13207::NB::X>)" = true.
Proof. vm_compute. reflexivity. Qed.
Example vec_0268 : v_sub 0 "?spam@NB@PR13207@@YAXV?$Y@VX@NA@PR13207@@@NA@2@@Z"
  "void __cdecl PR13207::NB::spam(class PR13207::NA::Y<class PR13207::NA::X>)" = true.
Proof. vm_compute. reflexivity. Qed.
Example vec_0269 : v_sub 0 "?foobar@NB@PR13207@@YAXV?$Y@V?$Y@VX@NB@PR13207@@@NB@PR13207@@@NA@2@V312@@Z"
  "void __cdecl PR13207::NB::foobar(class PR13207::NA::Y<class PR13207::NB::Y<class PR13207::NB::X>>, class PR13207::NB::Y<class PR13207::NB::Y<class PR13207::NB::X>>)" = true.
Proof. vm_compute. reflexivity. Qed.
Example vec_0270 : v_sub 0 "?foobarspam@NB@PR13207@@YAXV?$Y@VX@NB@PR13207@@@12@V?$Y@V?$Y@VX@NB@PR13207@@@NB@PR13207@@@NA@2@V412@@Z"
  "void __cdecl PR13207::NB::foobarspam(class PR13207::NB::Y<class PR13207::NB::X>, class PR13207::NA::Y<class PR13207::NB::Y<class PR13207::NB::X>>, class PR13207::NB::Y<class PR13207::NB::Y<class PR13207::NB::X>>)" = true.
Proof. vm_compute. reflexivity. Qed.
Example vec_0271 : v_sub 0 "?foobarbaz@NB@PR13207@@YAXV?$Y@VX@NB@PR13207@@@12@V?$Y@V?$Y@VX@NB@PR13207@@@NB@PR13207@@@NA@2@V412@2@Z"
  "void __cdecl PR13207::NB::foobarbaz(class PR13207::NB::Y<class PR13207::NB::X>, class PR13207::NA::Y<class PR13207::NB::Y<class PR13207::NB::X>>, class PR13207::NB::Y<class PR13207::NB::Y<class PR13207::NB::X>>, class PR13207::NB::Y<class PR13207::NB::Y<class PR13207::NB::X>>)" = true.
Proof. vm_compute. reflexivity. Qed.
Example vec_0272 : v_sub 0 "?foobarbazqux@NB@PR13207@@YAXV?$Y@VX@NB@PR13207@@@12@V?$Y@V?$Y@VX@NB@PR13207@@@NB@PR13207@@@NA@2@V412@2V?$Y@V?$Y@V?$Y@VX@NB@PR13207@@@NB@PR13207@@@NB@PR13207@@@52@@Z"
  "void __cdecl PR13207::NB::foobarbazqux(class PR13207::NB::Y<class PR13207::NB::X>, class PR13207::NA::Y<class PR13207::NB::Y<class PR13207::NB::X>>, class PR13207::NB::Y<class PR13207::NB::Y<class PR13207::NB::X>>, class PR13207::NB::Y<class PR13207::NB::Y<class PR13207::NB::X>>, class PR13207::NA::Y<class PR13207::NB::Y<class PR13207::NB::Y<class PR13207::NB::X>>>)" = true.
Proof. vm_compute. reflexivity. Qed.
Example vec_0273 : v_sub 0 "?foo@NC@PR13207@@YAXV?$Y@VX@NB@PR13207@@@12@@Z"
  "void __cdecl PR13207::NC::foo(class PR13207::NC::Y<class PR13207::NB::X>)" = true.
Proof. vm_compute. reflexivity. Qed.
Example vec_0274 : v_sub 0 "?foobar@NC@PR13207@@YAXV?$Y@V?$Y@V?$Y@VX@NA@PR13207@@@NA@PR13207@@@NB@PR13207@@@12@@Z"
  "void __cdecl PR13207::NC::foobar(class PR13207::NC::Y<class PR13207::NB::Y<class PR13207::NA::Y<class PR13207::NA::X>>>)" = true.
Proof. vm_compute. reflexivity. Qed.
Example vec_0275 : v_sub 0 "?fun_normal@fn_space@@YA?AURetVal@1@H@Z"
  "struct fn_space::RetVal __cdecl fn_space::fun_normal(int)" = true.
Proof. vm_compute. reflexivity. Qed.
Example vec_0276 : v_sub 0 "??$fun_tmpl@H@fn_space@@YA?AURetVal@0@ABH@Z"
  "struct fn_space::RetVal __cdecl fn_space::fun_tmpl<int>(int const &)" = true.
Proof. vm_compute. reflexivity. Qed.
Example vec_0277 : v_sub 0 "??$fun_tmpl_recurse@H$1??$fun_tmpl_recurse@H$1?ident@fn_space@@YA?AURetVal@2@H@Z@fn_space@@YA?AURetVal@1@H@Z@fn_space@@YA?AURetVal@0@H@Z"
  "struct fn_space::RetVal __cdecl fn_space::fun_tmpl_recurse<int, &struct fn_space::RetVal __cdecl fn_space::fun_tmpl_recurse<int, &struct fn_space::RetVal __cdecl fn_space::ident(int)>(int)>(int)" = true.
Proof. vm_compute. reflexivity. Qed.
Example vec_0278 : v_sub 0 "??$fun_tmpl_recurse@H$1?ident@fn_space@@YA?AURetVal@2@H@Z@fn_space@@YA?AURetVal@0@H@Z"
  "struct fn_space::RetVal __cdecl fn_space::fun_tmpl_recurse<int, &struct fn_space::RetVal __cdecl fn_space::ident(int)>(int)" = true.
Proof. vm_compute. reflexivity. Qed.
Example vec_0279 : v_sub 0 "?AddEmitPasses@EmitAssemblyHelper@?A0x43583946@@AEAA_NAEAVPassManager@legacy@llvm@@W4BackendAction@clang@@AEAVraw_pwrite_stream@5@PEAV85@@Z"
  "bool __cdecl `anonymous namespace'::EmitAssemblyHelper::AddEmitPasses(class llvm::legacy::PassManager &, enum clang::BackendAction, class llvm::raw_pwrite_stream &, class llvm::raw_pwrite_stream *)" = true.
Proof. vm_compute. reflexivity. Qed.
Example vec_0280 : v_sub 0 "??$forward@P8?$DecoderStream@$01@media@@AEXXZ@std@@YA$$QAP8?$DecoderStream@$01@media@@AEXXZAAP812@AEXXZ@Z"
  "void (__thiscall media::DecoderStream<2>::*&& __cdecl std::forward<void (__thiscall media::DecoderStream<2>::*)(void)>(void (__thiscall media::DecoderStream<2>::*&)(void)))(void)" = true.
Proof. vm_compute. reflexivity. Qed.
Example vec_0281 : v_sub 0 "?x@@3HA"
  "int x" = true.
Proof. vm_compute. reflexivity. Qed.
Example vec_0282 : v_sub 0 "?x@@3PEAHEA"
  "int *x" = true.
Proof. vm_compute. reflexivity. Qed.
Example vec_0283 : v_sub 0 "?x@@3PEAPEAHEA"
  "int **x" = true.
Proof. vm_compute. reflexivity. Qed.
Example vec_0284 : v_sub 0 "?foo@@3Y123KA"
  "unsigned long foo[3][4]" = true.
Proof. vm_compute. reflexivity. Qed.
Example vec_0285 : v_sub 0 "?x@@3PEAY02HEA"
  "int (*x)[3]" = true.
Proof. vm_compute. reflexivity. Qed.
Example vec_0286 : v_sub 0 "?x@@3PEAY124HEA"
  "int (*x)[3][5]" = true.
Proof. vm_compute. reflexivity. Qed.
Example vec_0287 : v_sub 0 "?x@@3PEAY02$$CBHEA"
  "int const (*x)[3]" = true.
Proof. vm_compute. reflexivity. Qed.
Example vec_0288 : v_sub 0 "?x@@3PEAEEA"
  "unsigned char *x" = true.
Proof. vm_compute. reflexivity. Qed.
Example vec_0289 : v_sub 0 "?y@@3PEAGEA"
  "unsigned short *y" = true.
Proof. vm_compute. reflexivity. Qed.
Example vec_0290 : v_sub 0 "?z@@3PEAKEA"
  "unsigned long *z" = true.
Proof. vm_compute. reflexivity. Qed.
Example vec_0291 : v_sub 0 "?x@@3PEAY1NKM@5HEA"
  "int (*x)[3500][6]" = true.
Proof. vm_compute. reflexivity. Qed.
Example vec_0292 : v_sub 0 "?x@@YAXMH@Z"
  "void __cdecl x(float, int)" = true.
Proof. vm_compute. reflexivity. Qed.
Example vec_0293 : v_sub 0 "?x@@YAXMHZZ"
  "void __cdecl x(float, int, ...)" = true.
Proof. vm_compute. reflexivity. Qed.
Example vec_0294 : v_sub 0 "?x@@YAXZZ"
  "void __cdecl x(...)" = true.
Proof. vm_compute. reflexivity. Qed.
Example vec_0295 : v_sub 0 "?x@@3P6AHMNH@ZEA"
  "int (__cdecl *x)(float, double, int)" = true.
Proof. vm_compute. reflexivity. Qed.
Example vec_0296 : v_sub 0 "?x@@3P6AHP6AHM@ZN@ZEA"
  "int (__cdecl *x)(int (__cdecl *)(float), double)" = true.
Proof. vm_compute. reflexivity. Qed.
Example vec_0297 : v_sub 0 "?x@@3P6AHP6AHM@Z0@ZEA"
  "int (__cdecl *x)(int (__cdecl *)(float), int (__cdecl *)(float))" = true.
Proof. vm_compute. reflexivity. Qed.
Example vec_0298 : v_sub 0 "?x@ns@@3HA"
  "int ns::x" = true.
Proof. vm_compute. reflexivity. Qed.
Example vec_0299 : v_sub 0 "?x@@3PEAHEA"
  "int *x" = true.
Proof. vm_compute. reflexivity. Qed.
Example vec_0300 : v_sub 0 "?x@@3PEBHEB"
  "int const *x" = true.
Proof. vm_compute. reflexivity. Qed.
Example vec_0301 : v_sub 0 "?x@@3QEAHEA"
  "int *const x" = true.
Proof. vm_compute. reflexivity. Qed.
Example vec_0302 : v_sub 0 "?x@@3QEBHEB"
  "int const *const x" = true.
Proof. vm_compute. reflexivity. Qed.
Example vec_0303 : v_sub 0 "?x@@3AEBHEB"
  "int const &x" = true.
Proof. vm_compute. reflexivity. Qed.
Example vec_0304 : v_sub 0 "?x@@3PEAUty@@EA"
  "struct ty *x" = true.
Proof. vm_compute. reflexivity. Qed.
Example vec_0305 : v_sub 0 "?x@@3PEATty@@EA"
  "union ty *x" = true.
Proof. vm_compute. reflexivity. Qed.
Example vec_0306 : v_sub 0 "?x@@3PEAVty@@EA"
  "class ty *x" = true.
Proof. vm_compute. reflexivity. Qed.
Example vec_0307 : v_sub 0 "?x@@3PEAW4ty@@EA"
  "enum ty *x" = true.
Proof. vm_compute. reflexivity. Qed.
Example vec_0308 : v_sub 0 "?x@@3PEAV?$tmpl@H@@EA"
  "class tmpl<int> *x" = true.
Proof. vm_compute. reflexivity. Qed.
Example vec_0309 : v_sub 0 "?x@@3PEAU?$tmpl@H@@EA"
  "struct tmpl<int> *x" = true.
Proof. vm_compute. reflexivity. Qed.
Example vec_0310 : v_sub 0 "?x@@3PEAT?$tmpl@H@@EA"
  "union tmpl<int> *x" = true.
Proof. vm_compute. reflexivity. Qed.
Example vec_0311 : v_sub 0 "?instance@@3Vklass@@A"
  "class klass instance" = true.
Proof. vm_compute. reflexivity. Qed.
Example vec_0312 : v_sub 0 "?instance$initializer$@@3P6AXXZEA"
  "void (__cdecl *instance$initializer$)(void)" = true.
Proof. vm_compute. reflexivity. Qed.
Example vec_0313 : v_sub 0 "??0klass@@QEAA@XZ"
  "__cdecl klass::klass(void)" = true.
Proof. vm_compute. reflexivity. Qed.
Example vec_0314 : v_sub 0 "??1klass@@QEAA@XZ"
  "__cdecl klass::~klass(void)" = true.
Proof. vm_compute. reflexivity. Qed.
Example vec_0315 : v_sub 0 "?x@@YAHPEAVklass@@AEAV1@@Z"
  "int __cdecl x(class klass *, class klass &)" = true.
Proof. vm_compute. reflexivity. Qed.
Example vec_0316 : v_sub 0 "?x@ns@@3PEAV?$klass@HH@1@EA"
  "class ns::klass<int, int> *ns::x" = true.
Proof. vm_compute. reflexivity. Qed.
Example vec_0317 : v_sub 0 "?fn@?$klass@H@ns@@QEBAIXZ"
  "unsigned int __cdecl ns::klass<int>::fn(void) const" = true.
Proof. vm_compute. reflexivity. Qed.
Example vec_0318 : v_sub 0 "??4klass@@QEAAAEBV0@AEBV0@@Z"
  "class klass const & __cdecl klass::operator=(class klass const &)" = true.
Proof. vm_compute. reflexivity. Qed.
Example vec_0319 : v_sub 0 "??7klass@@QEAA_NXZ"
  "bool __cdecl klass::operator!(void)" = true.
Proof. vm_compute. reflexivity. Qed.
Example vec_0320 : v_sub 0 "??8klass@@QEAA_NAEBV0@@Z"
  "bool __cdecl klass::operator==(class klass const &)" = true.
Proof. vm_compute. reflexivity. Qed.
Example vec_0321 : v_sub 0 "??9klass@@QEAA_NAEBV0@@Z"
  "bool __cdecl klass::operator!=(class klass const &)" = true.
Proof. vm_compute. reflexivity. Qed.
Example vec_0322 : v_sub 0 "??Aklass@@QEAAH_K@Z"
  "int __cdecl klass::operator[](unsigned __int64)" = true.
Proof. vm_compute. reflexivity. Qed.
Example vec_0323 : v_sub 0 "??Cklass@@QEAAHXZ"
  "int __cdecl klass::operator->(void)" = true.
Proof. vm_compute. reflexivity. Qed.
Example vec_0324 : v_sub 0 "??Dklass@@QEAAHXZ"
  "int __cdecl klass::operator*(void)" = true.
Proof. vm_compute. reflexivity. Qed.
Example vec_0325 : v_sub 0 "??Eklass@@QEAAHXZ"
  "int __cdecl klass::operator++(void)" = true.
Proof. vm_compute. reflexivity. Qed.
Example vec_0326 : v_sub 0 "??Eklass@@QEAAHH@Z"
  "int __cdecl klass::operator++(int)" = true.
Proof. vm_compute. reflexivity. Qed.
Example vec_0327 : v_sub 0 "??Fklass@@QEAAHXZ"
  "int __cdecl klass::operator--(void)" = true.
Proof. vm_compute. reflexivity. Qed.
Example vec_0328 : v_sub 0 "??Fklass@@QEAAHH@Z"
  "int __cdecl klass::operator--(int)" = true.
Proof. vm_compute. reflexivity. Qed.
Example vec_0329 : v_sub 0 "??Hklass@@QEAAHH@Z"
  "int __cdecl klass::operator+(int)" = true.
Proof. vm_compute. reflexivity. Qed.
Example vec_0330 : v_sub 0 "??Gklass@@QEAAHH@Z"
  "int __cdecl klass::operator-(int)" = true.
Proof. vm_compute. reflexivity. Qed.
Example vec_0331 : v_sub 0 "??Iklass@@QEAAHH@Z"
  "int __cdecl klass::operator&(int)" = true.
Proof. vm_compute. reflexivity. Qed.
Example vec_0332 : v_sub 0 "??Jklass@@QEAAHH@Z"
  "int __cdecl klass::operator->*(int)" = true.
Proof. vm_compute. reflexivity. Qed.
Example vec_0333 : v_sub 0 "??Kklass@@QEAAHH@Z"
  "int __cdecl klass::operator/(int)" = true.
Proof. vm_compute. reflexivity. Qed.
Example vec_0334 : v_sub 0 "??Mklass@@QEAAHH@Z"
  "int __cdecl klass::operator<(int)" = true.
Proof. vm_compute. reflexivity. Qed.
Example vec_0335 : v_sub 0 "??Nklass@@QEAAHH@Z"
  "int __cdecl klass::operator<=(int)" = true.
Proof. vm_compute. reflexivity. Qed.
Example vec_0336 : v_sub 0 "??Oklass@@QEAAHH@Z"
  "int __cdecl klass::operator>(int)" = true.
Proof. vm_compute. reflexivity. Qed.
Example vec_0337 : v_sub 0 "??Pklass@@QEAAHH@Z"
  "int __cdecl klass::operator>=(int)" = true.
Proof. vm_compute. reflexivity. Qed.
Example vec_0338 : v_sub 0 "??Qklass@@QEAAHH@Z"
  "int __cdecl klass::operator,(int)" = true.
Proof. vm_compute. reflexivity. Qed.
Example vec_0339 : v_sub 0 "??Rklass@@QEAAHH@Z"
  "int __cdecl klass::operator()(int)" = true.
Proof. vm_compute. reflexivity. Qed.
Example vec_0340 : v_sub 0 "??Sklass@@QEAAHXZ"
  "int __cdecl klass::operator~(void)" = true.
Proof. vm_compute. reflexivity. Qed.
Example vec_0341 : v_sub 0 "??Tklass@@QEAAHH@Z"
  "int __cdecl klass::operator^(int)" = true.
Proof. vm_compute. reflexivity. Qed.
Example vec_0342 : v_sub 0 "??Uklass@@QEAAHH@Z"
  "int __cdecl klass::operator|(int)" = true.
Proof. vm_compute. reflexivity. Qed.
Example vec_0343 : v_sub 0 "??Vklass@@QEAAHH@Z"
  "int __cdecl klass::operator&&(int)" = true.
Proof. vm_compute. reflexivity. Qed.
Example vec_0344 : v_sub 0 "??Wklass@@QEAAHH@Z"
  "int __cdecl klass::operator||(int)" = true.
Proof. vm_compute. reflexivity. Qed.
Example vec_0345 : v_sub 0 "??Xklass@@QEAAHH@Z"
  "int __cdecl klass::operator*=(int)" = true.
Proof. vm_compute. reflexivity. Qed.
Example vec_0346 : v_sub 0 "??Yklass@@QEAAHH@Z"
  "int __cdecl klass::operator+=(int)" = true.
Proof. vm_compute. reflexivity. Qed.
Example vec_0347 : v_sub 0 "??Zklass@@QEAAHH@Z"
  "int __cdecl klass::operator-=(int)" = true.
Proof. vm_compute. reflexivity. Qed.
Example vec_0348 : v_sub 0 "??_0klass@@QEAAHH@Z"
  "int __cdecl klass::operator/=(int)" = true.
Proof. vm_compute. reflexivity. Qed.
Example vec_0349 : v_sub 0 "??_1klass@@QEAAHH@Z"
  "int __cdecl klass::operator%=(int)" = true.
Proof. vm_compute. reflexivity. Qed.
Example vec_0350 : v_sub 0 "??_2klass@@QEAAHH@Z"
  "int __cdecl klass::operator>>=(int)" = true.
Proof. vm_compute. reflexivity. Qed.
Example vec_0351 : v_sub 0 "??_3klass@@QEAAHH@Z"
  "int __cdecl klass::operator<<=(int)" = true.
Proof. vm_compute. reflexivity. Qed.
Example vec_0352 : v_sub 0 "??_6klass@@QEAAHH@Z"
  "int __cdecl klass::operator^=(int)" = true.
Proof. vm_compute. reflexivity. Qed.
Example vec_0353 : v_sub 0 "??6@YAAEBVklass@@AEBV0@H@Z"
  "class klass const & __cdecl operator<<(class klass const &, int)" = true.
Proof. vm_compute. reflexivity. Qed.
Example vec_0354 : v_sub 0 "??5@YAAEBVklass@@AEBV0@_K@Z"
  "class klass const & __cdecl operator>>(class klass const &, unsigned __int64)" = true.
Proof. vm_compute. reflexivity. Qed.
Example vec_0355 : v_sub 0 "??2@YAPEAX_KAEAVklass@@@Z"
  "void * __cdecl operator new(unsigned __int64, class klass &)" = true.
Proof. vm_compute. reflexivity. Qed.
Example vec_0356 : v_sub 0 "??_U@YAPEAX_KAEAVklass@@@Z"
  "void * __cdecl operator new[](unsigned __int64, class klass &)" = true.
Proof. vm_compute. reflexivity. Qed.
Example vec_0357 : v_sub 0 "??3@YAXPEAXAEAVklass@@@Z"
  "void __cdecl operator delete(void *, class klass &)" = true.
Proof. vm_compute. reflexivity. Qed.
Example vec_0358 : v_sub 0 "??_V@YAXPEAXAEAVklass@@@Z"
  "void __cdecl operator delete[](void *, class klass &)" = true.
Proof. vm_compute. reflexivity. Qed.
Example vec_0359 : v_sub 0 "?A@?A0x43583946@@3VB@@B"
  "class B const `anonymous namespace'::A" = true.
Proof. vm_compute. reflexivity. Qed.
Example vec_0360 : v_sub 0 "??$?BH@TemplateOps@@QAEHXZ"
  "int __thiscall TemplateOps::operator<int> int(void)" = true.
Proof. vm_compute. reflexivity. Qed.
Example vec_0361 : v_sub 0 "??BOps@@QAEHXZ"
  "int __thiscall Ops::operator int(void)" = true.
Proof. vm_compute. reflexivity. Qed.
Example vec_0362 : v_sub 0 "??BConstOps@@QAE?BHXZ"
  "int const __thiscall ConstOps::operator int const(void)" = true.
Proof. vm_compute. reflexivity. Qed.
Example vec_0363 : v_sub 0 "??BVolatileOps@@QAE?CHXZ"
  "int volatile __thiscall VolatileOps::operator int volatile(void)" = true.
Proof. vm_compute. reflexivity. Qed.
Example vec_0364 : v_sub 0 "??BConstVolatileOps@@QAE?DHXZ"
  "int const volatile __thiscall ConstVolatileOps::operator int const volatile(void)" = true.
Proof. vm_compute. reflexivity. Qed.
Example vec_0365 : v_sub 0 "??$?BN@TemplateOps@@QAENXZ"
  "double __thiscall TemplateOps::operator<double> double(void)" = true.
Proof. vm_compute. reflexivity. Qed.
Example vec_0366 : v_sub 0 "??BOps@@QAENXZ"
  "double __thiscall Ops::operator double(void)" = true.
Proof. vm_compute. reflexivity. Qed.
Example vec_0367 : v_sub 0 "??BConstOps@@QAE?BNXZ"
  "double const __thiscall ConstOps::operator double const(void)" = true.
Proof. vm_compute. reflexivity. Qed.
Example vec_0368 : v_sub 0 "??BVolatileOps@@QAE?CNXZ"
  "double volatile __thiscall VolatileOps::operator double volatile(void)" = true.
Proof. vm_compute. reflexivity. Qed.
Example vec_0369 : v_sub 0 "??BConstVolatileOps@@QAE?DNXZ"
  "double const volatile __thiscall ConstVolatileOps::operator double const volatile(void)" = true.
Proof. vm_compute. reflexivity. Qed.
Example vec_0370 : v_sub 0 "??BCompoundTypeOps@@QAEPAHXZ"
  "nt * __thiscall CompoundTypeOps::operator int *(void)" = true.
Proof. vm_compute. reflexivity. Qed.
Example vec_0371 : v_sub 0 "??BCompoundTypeOps@@QAEPBHXZ"
  "int const * __thiscall CompoundTypeOps::operator int const *(void)" = true.
Proof. vm_compute. reflexivity. Qed.
Example vec_0372 : v_sub 0 "??BCompoundTypeOps@@QAE$$QAHXZ"
  "int && __thiscall CompoundTypeOps::operator int &&(void)" = true.
Proof. vm_compute. reflexivity. Qed.
Example vec_0373 : v_sub 0 "??BCompoundTypeOps@@QAE?AU?$Foo@H@@XZ"
  "struct Foo<int> __thiscall CompoundTypeOps::operator struct Foo<int>(void)" = true.
Proof. vm_compute. reflexivity. Qed.
Example vec_0374 : v_sub 0 "??$?BH@CompoundTypeOps@@QAE?AU?$Bar@U?$Foo@H@@@@XZ"
  "struct Bar<struct Foo<int>> __thiscall CompoundTypeOps::operator<int> struct Bar<struct Foo<int>>(void)" = true.
Proof. vm_compute. reflexivity. Qed.
Example vec_0375 : v_sub 0 "??$?BPAH@TemplateOps@@QAEPAHXZ"
  "int * __thiscall TemplateOps::operator<int *> int *(void)" = true.
Proof. vm_compute. reflexivity. Qed.
Example vec_0376 : v_sub 0 "?a@FTypeWithQuals@@3U?$S@$$A8@@BAHXZ@1@A"
  "struct FTypeWithQuals::S<int __cdecl(void) const> FTypeWithQuals::a" = true.
Proof. vm_compute. reflexivity. Qed.
Example vec_0377 : v_sub 0 "?b@FTypeWithQuals@@3U?$S@$$A8@@CAHXZ@1@A"
  "struct FTypeWithQuals::S<int __cdecl(void) volatile> FTypeWithQuals::b" = true.
Proof. vm_compute. reflexivity. Qed.
Example vec_0378 : v_sub 0 "?c@FTypeWithQuals@@3U?$S@$$A8@@IAAHXZ@1@A"
  "struct FTypeWithQuals::S<int __cdecl(void) __restrict> FTypeWithQuals::c" = true.
Proof. vm_compute. reflexivity. Qed.
Example vec_0379 : v_sub 0 "?d@FTypeWithQuals@@3U?$S@$$A8@@GBAHXZ@1@A"
  "struct FTypeWithQuals::S<int __cdecl(void) const &> FTypeWithQuals::d" = true.
Proof. vm_compute. reflexivity. Qed.
Example vec_0380 : v_sub 0 "?e@FTypeWithQuals@@3U?$S@$$A8@@GCAHXZ@1@A"
  "struct FTypeWithQuals::S<int __cdecl(void) volatile &> FTypeWithQuals::e" = true.
Proof. vm_compute. reflexivity. Qed.
Example vec_0381 : v_sub 0 "?f@FTypeWithQuals@@3U?$S@$$A8@@IGAAHXZ@1@A"
  "struct FTypeWithQuals::S<int __cdecl(void) __restrict &> FTypeWithQuals::f" = true.
Proof. vm_compute. reflexivity. Qed.
Example vec_0382 : v_sub 0 "?g@FTypeWithQuals@@3U?$S@$$A8@@HBAHXZ@1@A"
  "struct FTypeWithQuals::S<int __cdecl(void) const &&> FTypeWithQuals::g" = true.
Proof. vm_compute. reflexivity. Qed.
Example vec_0383 : v_sub 0 "?h@FTypeWithQuals@@3U?$S@$$A8@@HCAHXZ@1@A"
  "struct FTypeWithQuals::S<int __cdecl(void) volatile &&> FTypeWithQuals::h" = true.
Proof. vm_compute. reflexivity. Qed.
Example vec_0384 : v_sub 0 "?i@FTypeWithQuals@@3U?$S@$$A8@@IHAAHXZ@1@A"
  "struct FTypeWithQuals::S<int __cdecl(void) __restrict &&> FTypeWithQuals::i" = true.
Proof. vm_compute. reflexivity. Qed.
Example vec_0385 : v_sub 0 "?j@FTypeWithQuals@@3U?$S@$$A6AHXZ@1@A"
  "struct FTypeWithQuals::S<int __cdecl(void)> FTypeWithQuals::j" = true.
Proof. vm_compute. reflexivity. Qed.
Example vec_0386 : v_sub 0 "?k@FTypeWithQuals@@3U?$S@$$A8@@GAAHXZ@1@A"
  "struct FTypeWithQuals::S<int __cdecl(void) &> FTypeWithQuals::k" = true.
Proof. vm_compute. reflexivity. Qed.
Example vec_0387 : v_sub 0 "?l@FTypeWithQuals@@3U?$S@$$A8@@HAAHXZ@1@A"
  "struct FTypeWithQuals::S<int __cdecl(void) &&> FTypeWithQuals::l" = true.
Proof. vm_compute. reflexivity. Qed.
Example vec_0388 : v_sub 0 "?Char16Var@@3_SA"
  "char16_t Char16Var" = true.
Proof. vm_compute. reflexivity. Qed.
Example vec_0389 : v_sub 0 "?Char32Var@@3_UA"
  "char32_t Char32Var" = true.
Proof. vm_compute. reflexivity. Qed.
Example vec_0390 : v_sub 0 "?LRef@@YAXAAH@Z"
  "void __cdecl LRef(int &)" = true.
Proof. vm_compute. reflexivity. Qed.
Example vec_0391 : v_sub 0 "?RRef@@YAH$$QAH@Z"
  "int __cdecl RRef(int &&)" = true.
Proof. vm_compute. reflexivity. Qed.
Example vec_0392 : v_sub 0 "?Null@@YAX$$T@Z"
  "void __cdecl Null(std::nullptr_t)" = true.
Proof. vm_compute. reflexivity. Qed.
Example vec_0393 : v_sub 0 "?fun@PR18022@@YA?AU<unnamed-type-a>@1@U21@0@Z"
  "struct PR18022::<unnamed-type-a> __cdecl PR18022::fun(struct PR18022::<unnamed-type-a>, struct PR18022::<unnamed-type-a>)" = true.
Proof. vm_compute. reflexivity. Qed.
Example vec_0394 : v_sub 0 "?lambda@?1??define_lambda@@YAHXZ@4V<lambda_1>@?0??1@YAHXZ@A"
  "class `int __cdecl define_lambda(void)'::`1'::<lambda_1> `int __cdecl define_lambda(void)'::`2'::lambda" = true.
Proof. vm_compute. reflexivity. Qed.
Example vec_0395 : v_sub 0 "??R<lambda_1>@?0??define_lambda@@YAHXZ@QBE@XZ"
  "__thiscall `int __cdecl define_lambda(void)'::`1'::<lambda_1>::operator()(void) const" = true.
Proof. vm_compute. reflexivity. Qed.
Example vec_0396 : v_sub 0 "?local@?2???R<lambda_1>@?0??define_lambda@@YAHXZ@QBE@XZ@4HA"
  "__thiscall `int __cdecl define_lambda(void)'::`1'::<lambda_1>::operator()(void) const" = true.
Proof. vm_compute. reflexivity. Qed.
Example vec_0397 : v_sub 0 "??$use_lambda_arg@V<lambda_1>@?0??call_with_lambda_arg1@@YAXXZ@@@YAXV<lambda_1>@?0??call_with_lambda_arg1@@YAXXZ@@Z"
  "void __cdecl use_lambda_arg<class `void __cdecl call_with_lambda_arg1(void)'::`1'::<lambda_1>>(class `void __cdecl call_with_lambda_arg1(void)'::`1'::<lambda_1>)" = true.
Proof. vm_compute. reflexivity. Qed.
Example vec_0398 : v_sub 0 "?foo@A@PR19361@@QIGAEXXZ"
  "void __thiscall PR19361::A::foo(void) __restrict &" = true.
Proof. vm_compute. reflexivity. Qed.
Example vec_0399 : v_sub 0 "?foo@A@PR19361@@QIHAEXXZ"
  "void __thiscall PR19361::A::foo(void) __restrict &&" = true.
Proof. vm_compute. reflexivity. Qed.
Example vec_0400 : v_sub 0 "??__K_deg@@YAHO@Z"
  "int __cdecl operator """"_deg(long double)" = true.
Proof. vm_compute. reflexivity. Qed.
Example vec_0401 : v_sub 0 "??$templ_fun_with_pack@$S@@YAXXZ"
  "void __cdecl templ_fun_with_pack<>(void)" = true.
Proof. vm_compute. reflexivity. Qed.
Example vec_0402 : v_sub 0 "??$func@H$$ZH@@YAHAEBU?$Foo@H@@0@Z"
  "int __cdecl func<int, int>(struct Foo<int> const &, struct Foo<int> const &)" = true.
Proof. vm_compute. reflexivity. Qed.
Example vec_0403 : v_sub 0 "??$templ_fun_with_ty_pack@$$$V@@YAXXZ"
  "void __cdecl templ_fun_with_ty_pack<>(void)" = true.
Proof. vm_compute. reflexivity. Qed.
Example vec_0404 : v_sub 0 "??$templ_fun_with_ty_pack@$$V@@YAXXZ"
  "void __cdecl templ_fun_with_ty_pack<>(void)" = true.
Proof. vm_compute. reflexivity. Qed.
Example vec_0405 : v_sub 0 "??$f@$$YAliasA@PR20047@@@PR20047@@YAXXZ"
  "void __cdecl PR20047::f<PR20047::AliasA>(void)" = true.
Proof. vm_compute. reflexivity. Qed.
Example vec_0406 : v_sub 0 "?f@UnnamedType@@YAXAAU<unnamed-type-TD>@A@1@@Z"
  "void __cdecl UnnamedType::f(struct UnnamedType::A::<unnamed-type-TD> &)" = true.
Proof. vm_compute. reflexivity. Qed.
Example vec_0407 : v_sub 0 "?f@UnnamedType@@YAXPAW4<unnamed-type-e>@?$B@H@1@@Z"
  "void __cdecl UnnamedType::f(enum UnnamedType::B<int>::<unnamed-type-e> *)" = true.
Proof. vm_compute. reflexivity. Qed.
Example vec_0408 : v_sub 0 "??$f@W4<unnamed-type-E>@?1??g@PR24651@@YAXXZ@@PR24651@@YAXW4<unnamed-type-E>@?1??g@0@YAXXZ@@Z"
  "void __cdecl PR24651::f<enum `void __cdecl PR24651::g(void)'::`2'::<unnamed-type-E>>(enum `void __cdecl PR24651::g(void)'::`2'::<unnamed-type-E>)" = true.
Proof. vm_compute. reflexivity. Qed.
Example vec_0409 : v_sub 0 "??$f@T<unnamed-type-$S1>@PR18204@@@PR18204@@YAHPAT<unnamed-type-$S1>@0@@Z"
  "int __cdecl PR18204::f<union PR18204::<unnamed-type-$S1>>(union PR18204::<unnamed-type-$S1> *)" = true.
Proof. vm_compute. reflexivity. Qed.
Example vec_0410 : v_sub 0 "??R<lambda_0>@?0??PR26105@@YAHXZ@QBE@H@Z"
  "public: __thiscall `int __cdecl PR26105(void)'::`1'::<lambda_0>::operator()(int) const" = true.
Proof. vm_compute. reflexivity. Qed.
Example vec_0411 : v_sub 0 "??R<lambda_1>@?0???R<lambda_0>@?0??PR26105@@YAHXZ@QBE@H@Z@QBE@H@Z"
  "public: __thiscall `public: __thiscall `int __cdecl PR26105(void)'::`1'::<lambda_0>::operator()(int) const'::`1'::<lambda_1>::operator()(int) const" = true.
Proof. vm_compute. reflexivity. Qed.
Example vec_0412 : v_sub 0 "?unaligned_foo1@@YAPFAHXZ"
  "int __unaligned * __cdecl unaligned_foo1(void)" = true.
Proof. vm_compute. reflexivity. Qed.
Example vec_0413 : v_sub 0 "?unaligned_foo2@@YAPFAPFAHXZ"
  "int __unaligned *__unaligned * __cdecl unaligned_foo2(void)" = true.
Proof. vm_compute. reflexivity. Qed.
Example vec_0414 : v_sub 0 "?unaligned_foo3@@YAHXZ"
  "int __cdecl unaligned_foo3(void)" = true.
Proof. vm_compute. reflexivity. Qed.
Example vec_0415 : v_sub 0 "?unaligned_foo4@@YAXPFAH@Z"
  "void __cdecl unaligned_foo4(int __unaligned *)" = true.
Proof. vm_compute. reflexivity. Qed.
Example vec_0416 : v_sub 0 "?unaligned_foo5@@YAXPIFAH@Z"
  "void __cdecl unaligned_foo5(int __unaligned *__restrict)" = true.
Proof. vm_compute. reflexivity. Qed.
Example vec_0417 : v_sub 0 "??$unaligned_foo6@PAH@@YAPAHPAH@Z"
  "int * __cdecl unaligned_foo6<int *>(int *)" = true.
Proof. vm_compute. reflexivity. Qed.
Example vec_0418 : v_sub 0 "??$unaligned_foo6@PFAH@@YAPFAHPFAH@Z"
  "int __unaligned * __cdecl unaligned_foo6<int __unaligned *>(int __unaligned *)" = true.
Proof. vm_compute. reflexivity. Qed.
Example vec_0419 : v_sub 0 "?unaligned_foo8@unaligned_foo8_S@@QFCEXXZ"
  "void __thiscall unaligned_foo8_S::unaligned_foo8(void) volatile __unaligned" = true.
Proof. vm_compute. reflexivity. Qed.
Example vec_0420 : v_sub 0 "??R<lambda_1>@x@A@PR31197@@QBE@XZ"
  "__thiscall PR31197::A::x::<lambda_1>::operator()(void) const" = true.
Proof. vm_compute. reflexivity. Qed.
Example vec_0421 : v_sub 0 "?white@?1???R<lambda_1>@x@A@PR31197@@QBE@XZ@4HA"
  "int `public: __thiscall PR31197::A::x::<lambda_1>::operator()(void) const'::`2'::white" = true.
Proof. vm_compute. reflexivity. Qed.
Example vec_0422 : v_sub 0 "?f@@YAXW4<unnamed-enum-enumerator>@@@Z"
  "void __cdecl f(enum <unnamed-enum-enumerator>)" = true.
Proof. vm_compute. reflexivity. Qed.
Example vec_0423 : v_sub 0 "??$x@X@@3HA"
  "int x<void>" = true.
Proof. vm_compute. reflexivity. Qed.
Example vec_0424 : v_sub 0 "?FunctionWithLocalType@@YA?A?<auto>@@XZ"
  "<auto> __cdecl FunctionWithLocalType(void)" = true.
Proof. vm_compute. reflexivity. Qed.
Example vec_0425 : v_sub 0 "?ValueFromFunctionWithLocalType@@3ULocalType@?1??FunctionWithLocalType@@YA?A?<auto>@@XZ@A"
  "struct `<auto> __cdecl FunctionWithLocalType(void)'::`2'::LocalType ValueFromFunctionWithLocalType" = true.
Proof. vm_compute. reflexivity. Qed.
Example vec_0426 : v_sub 0 "??R<lambda_0>@@QBE?A?<auto>@@XZ"
  "<auto> __thiscall <lambda_0>::operator()(void) const" = true.
Proof. vm_compute. reflexivity. Qed.
Example vec_0427 : v_sub 0 "?ValueFromLambdaWithLocalType@@3ULocalType@?1???R<lambda_0>@@QBE?A?<auto>@@XZ@A"
  "struct `public: <auto> __thiscall <lambda_0>::operator()(void) const'::`2'::LocalType ValueFromLambdaWithLocalType" = true.
Proof. vm_compute. reflexivity. Qed.
Example vec_0428 : v_sub 0 "?ValueFromTemplateFuncionWithLocalLambda@@3ULocalType@?2???R<lambda_1>@?0???$TemplateFuncionWithLocalLambda@H@@YA?A?<auto>@@H@Z@QBE?A?3@XZ@A"
  "struct `public: <auto> __thiscall `<auto> __cdecl TemplateFuncionWithLocalLambda<int>(int)'::`1'::<lambda_1>::operator()(void) const'::`3'::LocalType ValueFromTemplateFuncionWithLocalLambda" = true.
Proof. vm_compute. reflexivity. Qed.
Example vec_0429 : v_sub 0 "??$TemplateFuncionWithLocalLambda@H@@YA?A?<auto>@@H@Z"
  "<auto> __cdecl TemplateFuncionWithLocalLambda<int>(int)" = true.
Proof. vm_compute. reflexivity. Qed.
Example vec_0430 : v_sub 0 "??R<lambda_1>@?0???$TemplateFuncionWithLocalLambda@H@@YA?A?<auto>@@H@Z@QBE?A?1@XZ"
  "<auto> __thiscall `<auto> __cdecl TemplateFuncionWithLocalLambda<int>(int)'::`1'::<lambda_1>::operator()(void) const" = true.
Proof. vm_compute. reflexivity. Qed.
Example vec_0431 : v_sub 0 "??$WithPMD@$GA@A@?0@@3HA"
  "int WithPMD<{0, 0, -1}>" = true.
Proof. vm_compute. reflexivity. Qed.
Example vec_0432 : v_sub 0 "?Zoo@@3U?$Foo@$1??$x@H@@3HA$1?1@3HA@@A"
  "struct Foo<&int x<int>, &int x<int>> Zoo" = true.
Proof. vm_compute. reflexivity. Qed.
Example vec_0433 : v_sub 0 "??$unaligned_x@PFAH@@3PFAHA"
  "int __unaligned *unaligned_x<int __unaligned *>" = true.
Proof. vm_compute. reflexivity. Qed.
Example vec_0434 : v_sub 0 "?nochange@@YAXXZ"
  "void __cdecl nochange(void)" = true.
Proof. vm_compute. reflexivity. Qed.
Example vec_0435 : v_sub 0 "?a@@YAXP6AHXZ@Z"
  "void __cdecl a(int (__cdecl *)(void))" = true.
Proof. vm_compute. reflexivity. Qed.
Example vec_0436 : v_sub 0 "?a@@YAXP6AHX_E@Z"
  "void __cdecl a(int (__cdecl *)(void) noexcept)" = true.
Proof. vm_compute. reflexivity. Qed.
Example vec_0437 : v_sub 0 "?b@@YAXP6AHXZ@Z"
  "void __cdecl b(int (__cdecl *)(void))" = true.
Proof. vm_compute. reflexivity. Qed.
Example vec_0438 : v_sub 0 "?c@@YAXP6AHXZ@Z"
  "void __cdecl c(int (__cdecl *)(void))" = true.
Proof. vm_compute. reflexivity. Qed.
Example vec_0439 : v_sub 0 "?c@@YAXP6AHX_E@Z"
  "void __cdecl c(int (__cdecl *)(void) noexcept)" = true.
Proof. vm_compute. reflexivity. Qed.
Example vec_0440 : v_sub 0 "?ee@?$e@$$A6AXXZ@@EEAAXXZ"
  "private: virtual void __cdecl e<void __cdecl(void)>::ee(void)" = true.
Proof. vm_compute. reflexivity. Qed.
Example vec_0441 : v_sub 0 "?ee@?$e@$$A6AXX_E@@EEAAXXZ"
  "private: virtual void __cdecl e<void __cdecl(void) noexcept>::ee(void)" = true.
Proof. vm_compute. reflexivity. Qed.
Example vec_0442 : v_sub 0 "??__LA@@QEAA?AUno_suspend@@XZ"
  "struct no_suspend __cdecl A::operator co_await(void)" = true.
Proof. vm_compute. reflexivity. Qed.
Example vec_0443 : v_sub 0 "??__MS@@QEAA?AVstrong_ordering@std@@AEBU0@@Z'"
  "class std::strong_ordering __cdecl S::operator<=>(struct S const &)" = true.
Proof. vm_compute. reflexivity. Qed.
Example vec_0444 : v_sub 0 "?f@@YAX_Q@Z"
  "void __cdecl f(char8_t)" = true.
Proof. vm_compute. reflexivity. Qed.
Example vec_0445 : v_sub 0 "?a@@3HA"
  "int a" = true.
Proof. vm_compute. reflexivity. Qed.
Example vec_0446 : v_sub 0 "?b@N@@3HA"
  "int N::b" = true.
Proof. vm_compute. reflexivity. Qed.
Example vec_0447 : v_sub 0 "?anonymous@?A@N@@3HA"
  "int N::`anonymous namespace'::anonymous" = true.
Proof. vm_compute. reflexivity. Qed.
Example vec_0448 : v_sub 0 "?$RT1@NeedsReferenceTemporary@@3ABHB"
  "int const &NeedsReferenceTemporary::$RT1" = true.
Proof. vm_compute. reflexivity. Qed.
Example vec_0449 : v_sub 0 "?$RT1@NeedsReferenceTemporary@@3AEBHEB"
  "int const &NeedsReferenceTemporary::$RT1" = true.
Proof. vm_compute. reflexivity. Qed.
Example vec_0450 : v_sub 0 "?_c@@YAHXZ"
  "int __cdecl _c(void)" = true.
Proof. vm_compute. reflexivity. Qed.
Example vec_0451 : v_sub 0 "?d@foo@@0FB"
  "static short const foo::d" = true.
Proof. vm_compute. reflexivity. Qed.
Example vec_0452 : v_sub 0 "?e@foo@@1JC"
  "static long volatile foo::e" = true.
Proof. vm_compute. reflexivity. Qed.
Example vec_0453 : v_sub 0 "?f@foo@@2DD"
  "static char const volatile foo::f" = true.
Proof. vm_compute. reflexivity. Qed.
Example vec_0454 : v_sub 0 "??0foo@@QAE@XZ"
  "__thiscall foo::foo(void)" = true.
Proof. vm_compute. reflexivity. Qed.
Example vec_0455 : v_sub 0 "??0foo@@QEAA@XZ"
  "__cdecl foo::foo(void)" = true.
Proof. vm_compute. reflexivity. Qed.
Example vec_0456 : v_sub 0 "??1foo@@QAE@XZ"
  "__thiscall foo::~foo(void)" = true.
Proof. vm_compute. reflexivity. Qed.
Example vec_0457 : v_sub 0 "??1foo@@QEAA@XZ"
  "__cdecl foo::~foo(void)" = true.
Proof. vm_compute. reflexivity. Qed.
Example vec_0458 : v_sub 0 "??0foo@@QAE@H@Z"
  "__thiscall foo::foo(int)" = true.
Proof. vm_compute. reflexivity. Qed.
Example vec_0459 : v_sub 0 "??0foo@@QEAA@H@Z"
  "__cdecl foo::foo(int)" = true.
Proof. vm_compute. reflexivity. Qed.
Example vec_0460 : v_sub 0 "??0foo@@QAE@PAD@Z"
  "__thiscall foo::foo(char *)" = true.
Proof. vm_compute. reflexivity. Qed.
Example vec_0461 : v_sub 0 "??0foo@@QEAA@PEAD@Z"
  "__cdecl foo::foo(char *)" = true.
Proof. vm_compute. reflexivity. Qed.
Example vec_0462 : v_sub 0 "?bar@@YA?AVfoo@@XZ"
  "class foo __cdecl bar(void)" = true.
Proof. vm_compute. reflexivity. Qed.
Example vec_0463 : v_sub 0 "?bar@@YA?AVfoo@@XZ"
  "class foo __cdecl bar(void)" = true.
Proof. vm_compute. reflexivity. Qed.
Example vec_0464 : v_sub 0 "??Hfoo@@QAEHH@Z"
  "int __thiscall foo::operator+(int)" = true.
Proof. vm_compute. reflexivity. Qed.
Example vec_0465 : v_sub 0 "??Hfoo@@QEAAHH@Z"
  "int __cdecl foo::operator+(int)" = true.
Proof. vm_compute. reflexivity. Qed.
Example vec_0466 : v_sub 0 "??$?HH@S@@QEAAAEANH@Z"
  "double & __cdecl S::operator+<int>(int)" = true.
Proof. vm_compute. reflexivity. Qed.
Example vec_0467 : v_sub 0 "?static_method@foo@@SAPAV1@XZ"
  "static class foo * __cdecl foo::static_method(void)" = true.
Proof. vm_compute. reflexivity. Qed.
Example vec_0468 : v_sub 0 "?static_method@foo@@SAPEAV1@XZ"
  "static class foo * __cdecl foo::static_method(void)" = true.
Proof. vm_compute. reflexivity. Qed.
Example vec_0469 : v_sub 0 "?g@bar@@2HA"
  "static int bar::g" = true.
Proof. vm_compute. reflexivity. Qed.
Example vec_0470 : v_sub 0 "?h1@@3QAHA"
  "int *const h1" = true.
Proof. vm_compute. reflexivity. Qed.
Example vec_0471 : v_sub 0 "?h2@@3QBHB"
  "int const *const h2" = true.
Proof. vm_compute. reflexivity. Qed.
Example vec_0472 : v_sub 0 "?h3@@3QIAHIA"
  "int *const __restrict h3" = true.
Proof. vm_compute. reflexivity. Qed.
Example vec_0473 : v_sub 0 "?h3@@3QEIAHEIA"
  "int *const __restrict h3" = true.
Proof. vm_compute. reflexivity. Qed.
Example vec_0474 : v_sub 0 "?i@@3PAY0BE@HA"
  "int (*i)[20]" = true.
Proof. vm_compute. reflexivity. Qed.
Example vec_0475 : v_sub 0 "?FunArr@@3PAY0BE@P6AHHH@ZA"
  "int (__cdecl *(*FunArr)[20])(int, int)" = true.
Proof. vm_compute. reflexivity. Qed.
Example vec_0476 : v_sub 0 "?j@@3P6GHCE@ZA"
  "int (__stdcall *j)(signed char, unsigned char)" = true.
Proof. vm_compute. reflexivity. Qed.
Example vec_0477 : v_sub 0 "?funptr@@YAP6AHXZXZ"
  "int (__cdecl * __cdecl funptr(void))(void)" = true.
Proof. vm_compute. reflexivity. Qed.
Example vec_0478 : v_sub 0 "?m@@3PRfoo@@DR1@"
  "char const foo::*m" = true.
Proof. vm_compute. reflexivity. Qed.
Example vec_0479 : v_sub 0 "?m@@3PERfoo@@DER1@"
  "char const foo::*m" = true.
Proof. vm_compute. reflexivity. Qed.
Example vec_0480 : v_sub 0 "?k@@3PTfoo@@DT1@"
  "char const volatile foo::*k" = true.
Proof. vm_compute. reflexivity. Qed.
Example vec_0481 : v_sub 0 "?k@@3PETfoo@@DET1@"
  "char const volatile foo::*k" = true.
Proof. vm_compute. reflexivity. Qed.
Example vec_0482 : v_sub 0 "?l@@3P8foo@@AEHH@ZQ1@"
  "int (__thiscall foo::*l)(int)" = true.
Proof. vm_compute. reflexivity. Qed.
Example vec_0483 : v_sub 0 "?g_cInt@@3HB"
  "int const g_cInt" = true.
Proof. vm_compute. reflexivity. Qed.
Example vec_0484 : v_sub 0 "?g_vInt@@3HC"
  "int volatile g_vInt" = true.
Proof. vm_compute. reflexivity. Qed.
Example vec_0485 : v_sub 0 "?g_cvInt@@3HD"
  "int const volatile g_cvInt" = true.
Proof. vm_compute. reflexivity. Qed.
Example vec_0486 : v_sub 0 "?beta@@YI_N_J_W@Z"
  "bool __fastcall beta(__int64, wchar_t)" = true.
Proof. vm_compute. reflexivity. Qed.
Example vec_0487 : v_sub 0 "?beta@@YA_N_J_W@Z"
  "bool __cdecl beta(__int64, wchar_t)" = true.
Proof. vm_compute. reflexivity. Qed.
Example vec_0488 : v_sub 0 "?alpha@@YGXMN@Z"
  "void __stdcall alpha(float, double)" = true.
Proof. vm_compute. reflexivity. Qed.
Example vec_0489 : v_sub 0 "?alpha@@YAXMN@Z"
  "void __cdecl alpha(float, double)" = true.
Proof. vm_compute. reflexivity. Qed.
Example vec_0490 : v_sub 0 "?gamma@@YAXVfoo@@Ubar@@Tbaz@@W4quux@@@Z"
  "void __cdecl gamma(class foo, struct bar, union baz, enum quux)" = true.
Proof. vm_compute. reflexivity. Qed.
Example vec_0491 : v_sub 0 "?gamma@@YAXVfoo@@Ubar@@Tbaz@@W4quux@@@Z"
  "void __cdecl gamma(class foo, struct bar, union baz, enum quux)" = true.
Proof. vm_compute. reflexivity. Qed.
Example vec_0492 : v_sub 0 "?delta@@YAXQAHABJ@Z"
  "void __cdecl delta(int *const, long const &)" = true.
Proof. vm_compute. reflexivity. Qed.
Example vec_0493 : v_sub 0 "?delta@@YAXQEAHAEBJ@Z"
  "void __cdecl delta(int *const, long const &)" = true.
Proof. vm_compute. reflexivity. Qed.
Example vec_0494 : v_sub 0 "?epsilon@@YAXQAY19BE@H@Z"
  "void __cdecl epsilon(int (*const)[10][20])" = true.
Proof. vm_compute. reflexivity. Qed.
Example vec_0495 : v_sub 0 "?epsilon@@YAXQEAY19BE@H@Z"
  "void __cdecl epsilon(int (*const)[10][20])" = true.
Proof. vm_compute. reflexivity. Qed.
Example vec_0496 : v_sub 0 "?zeta@@YAXP6AHHH@Z@Z"
  "void __cdecl zeta(int (__cdecl *)(int, int))" = true.
Proof. vm_compute. reflexivity. Qed.
Example vec_0497 : v_sub 0 "?zeta@@YAXP6AHHH@Z@Z"
  "void __cdecl zeta(int (__cdecl *)(int, int))" = true.
Proof. vm_compute. reflexivity. Qed.
Example vec_0498 : v_sub 0 "??2@YAPAXI@Z"
  "void * __cdecl operator new(unsigned int)" = true.
Proof. vm_compute. reflexivity. Qed.
Example vec_0499 : v_sub 0 "??3@YAXPAX@Z"
  "void __cdecl operator delete(void *)" = true.
Proof. vm_compute. reflexivity. Qed.
Example vec_0500 : v_sub 0 "??_U@YAPAXI@Z"
  "void * __cdecl operator new[](unsigned int)" = true.
Proof. vm_compute. reflexivity. Qed.
Example vec_0501 : v_sub 0 "??_V@YAXPAX@Z"
  "void __cdecl operator delete[](void *)" = true.
Proof. vm_compute. reflexivity. Qed.
Example vec_0502 : v_sub 0 "?color1@@3PANA"
  "double *color1" = true.
Proof. vm_compute. reflexivity. Qed.
Example vec_0503 : v_sub 0 "?color2@@3QBNB"
  "double const *const color2" = true.
Proof. vm_compute. reflexivity. Qed.
Example vec_0504 : v_sub 0 "?color3@@3QAY02$$CBNA"
  "double const (*const color3)[3]" = true.
Proof. vm_compute. reflexivity. Qed.
Example vec_0505 : v_sub 0 "?color4@@3QAY02$$CBNA"
  "double const (*const color4)[3]" = true.
Proof. vm_compute. reflexivity. Qed.
Example vec_0506 : v_sub 0 "?memptr1@@3RESB@@HES1@"
  "int volatile B::*volatile memptr1" = true.
Proof. vm_compute. reflexivity. Qed.
Example vec_0507 : v_sub 0 "?memptr2@@3PESB@@HES1@"
  "int volatile B::*memptr2" = true.
Proof. vm_compute. reflexivity. Qed.
Example vec_0508 : v_sub 0 "?memptr3@@3REQB@@HEQ1@"
  "int B::*volatile memptr3" = true.
Proof. vm_compute. reflexivity. Qed.
Example vec_0509 : v_sub 0 "?funmemptr1@@3RESB@@R6AHXZES1@"
  "int (__cdecl *volatile B::*volatile funmemptr1)(void)" = true.
Proof. vm_compute. reflexivity. Qed.
Example vec_0510 : v_sub 0 "?funmemptr2@@3PESB@@R6AHXZES1@"
  "int (__cdecl *volatile B::*funmemptr2)(void)" = true.
Proof. vm_compute. reflexivity. Qed.
Example vec_0511 : v_sub 0 "?funmemptr3@@3REQB@@P6AHXZEQ1@"
  "int (__cdecl *B::*volatile funmemptr3)(void)" = true.
Proof. vm_compute. reflexivity. Qed.
Example vec_0512 : v_sub 0 "?memptrtofun1@@3R8B@@EAAXXZEQ1@"
  "void (__cdecl B::*volatile memptrtofun1)(void)" = true.
Proof. vm_compute. reflexivity. Qed.
Example vec_0513 : v_sub 0 "?memptrtofun2@@3P8B@@EAAXXZEQ1@"
  "void (__cdecl B::*memptrtofun2)(void)" = true.
Proof. vm_compute. reflexivity. Qed.
Example vec_0514 : v_sub 0 "?memptrtofun3@@3P8B@@EAAXXZEQ1@"
  "void (__cdecl B::*memptrtofun3)(void)" = true.
Proof. vm_compute. reflexivity. Qed.
Example vec_0515 : v_sub 0 "?memptrtofun4@@3R8B@@EAAHXZEQ1@"
  "int (__cdecl B::*volatile memptrtofun4)(void)" = true.
Proof. vm_compute. reflexivity. Qed.
Example vec_0516 : v_sub 0 "?memptrtofun5@@3P8B@@EAA?CHXZEQ1@"
  "int volatile (__cdecl B::*memptrtofun5)(void)" = true.
Proof. vm_compute. reflexivity. Qed.
Example vec_0517 : v_sub 0 "?memptrtofun6@@3P8B@@EAA?BHXZEQ1@"
  "int const (__cdecl B::*memptrtofun6)(void)" = true.
Proof. vm_compute. reflexivity. Qed.
Example vec_0518 : v_sub 0 "?memptrtofun7@@3R8B@@EAAP6AHXZXZEQ1@"
  "int (__cdecl * (__cdecl B::*volatile memptrtofun7)(void))(void)" = true.
Proof. vm_compute. reflexivity. Qed.
Example vec_0519 : v_sub 0 "?memptrtofun8@@3P8B@@EAAR6AHXZXZEQ1@"
  "int (__cdecl *volatile (__cdecl B::*memptrtofun8)(void))(void)" = true.
Proof. vm_compute. reflexivity. Qed.
Example vec_0520 : v_sub 0 "?memptrtofun9@@3P8B@@EAAQ6AHXZXZEQ1@"
  "int (__cdecl *const (__cdecl B::*memptrtofun9)(void))(void)" = true.
Proof. vm_compute. reflexivity. Qed.
Example vec_0521 : v_sub 0 "?fooE@@YA?AW4E@@XZ"
  "enum E __cdecl fooE(void)" = true.
Proof. vm_compute. reflexivity. Qed.
Example vec_0522 : v_sub 0 "?fooE@@YA?AW4E@@XZ"
  "enum E __cdecl fooE(void)" = true.
Proof. vm_compute. reflexivity. Qed.
Example vec_0523 : v_sub 0 "?fooX@@YA?AVX@@XZ"
  "class X __cdecl fooX(void)" = true.
Proof. vm_compute. reflexivity. Qed.
Example vec_0524 : v_sub 0 "?fooX@@YA?AVX@@XZ"
  "class X __cdecl fooX(void)" = true.
Proof. vm_compute. reflexivity. Qed.
Example vec_0525 : v_sub 0 "?s0@PR13182@@3PADA"
  "char *PR13182::s0" = true.
Proof. vm_compute. reflexivity. Qed.
Example vec_0526 : v_sub 0 "?s1@PR13182@@3PADA"
  "char *PR13182::s1" = true.
Proof. vm_compute. reflexivity. Qed.
Example vec_0527 : v_sub 0 "?s2@PR13182@@3QBDB"
  "char const *const PR13182::s2" = true.
Proof. vm_compute. reflexivity. Qed.
Example vec_0528 : v_sub 0 "?s3@PR13182@@3QBDB"
  "char const *const PR13182::s3" = true.
Proof. vm_compute. reflexivity. Qed.
Example vec_0529 : v_sub 0 "?s4@PR13182@@3RCDC"
  "char volatile *volatile PR13182::s4" = true.
Proof. vm_compute. reflexivity. Qed.
Example vec_0530 : v_sub 0 "?s5@PR13182@@3SDDD"
  "char const volatile *const volatile PR13182::s5" = true.
Proof. vm_compute. reflexivity. Qed.
Example vec_0531 : v_sub 0 "?s6@PR13182@@3PBQBDB"
  "char const *const *PR13182::s6" = true.
Proof. vm_compute. reflexivity. Qed.
Example vec_0532 : v_sub 0 "?local@?1??extern_c_func@@9@4HA"
  "int `extern ""C"" extern_c_func'::`2'::local" = true.
Proof. vm_compute. reflexivity. Qed.
Example vec_0533 : v_sub 0 "?local@?1??extern_c_func@@9@4HA"
  "int `extern ""C"" extern_c_func'::`2'::local" = true.
Proof. vm_compute. reflexivity. Qed.
Example vec_0534 : v_sub 0 "?v@?1??f@@YAHXZ@4U<unnamed-type-v>@?1??1@YAHXZ@A"
  "struct `int __cdecl f(void)'::`2'::<unnamed-type-v> `int __cdecl f(void)'::`2'::v" = true.
Proof. vm_compute. reflexivity. Qed.
Example vec_0535 : v_sub 0 "?v@?1???$f@H@@YAHXZ@4U<unnamed-type-v>@?1???$f@H@@YAHXZ@A"
  "struct `int __cdecl f<int>(void)'::`2'::<unnamed-type-v> `int __cdecl f<int>(void)'::`2'::v" = true.
Proof. vm_compute. reflexivity. Qed.
Example vec_0536 : v_sub 0 "??2OverloadedNewDelete@@SAPAXI@Z"
  "static void * __cdecl OverloadedNewDelete::operator new(unsigned int)" = true.
Proof. vm_compute. reflexivity. Qed.
Example vec_0537 : v_sub 0 "??_UOverloadedNewDelete@@SAPAXI@Z"
  "static void * __cdecl OverloadedNewDelete::operator new[](unsigned int)" = true.
Proof. vm_compute. reflexivity. Qed.
Example vec_0538 : v_sub 0 "??3OverloadedNewDelete@@SAXPAX@Z"
  "static void __cdecl OverloadedNewDelete::operator delete(void *)" = true.
Proof. vm_compute. reflexivity. Qed.
Example vec_0539 : v_sub 0 "??_VOverloadedNewDelete@@SAXPAX@Z"
  "static void __cdecl OverloadedNewDelete::operator delete[](void *)" = true.
Proof. vm_compute. reflexivity. Qed.
Example vec_0540 : v_sub 0 "??HOverloadedNewDelete@@QAEHH@Z"
  "int __thiscall OverloadedNewDelete::operator+(int)" = true.
Proof. vm_compute. reflexivity. Qed.
Example vec_0541 : v_sub 0 "??2OverloadedNewDelete@@SAPEAX_K@Z"
  "static void * __cdecl OverloadedNewDelete::operator new(unsigned __int64)" = true.
Proof. vm_compute. reflexivity. Qed.
Example vec_0542 : v_sub 0 "??_UOverloadedNewDelete@@SAPEAX_K@Z"
  "static void * __cdecl OverloadedNewDelete::operator new[](unsigned __int64)" = true.
Proof. vm_compute. reflexivity. Qed.
Example vec_0543 : v_sub 0 "??3OverloadedNewDelete@@SAXPEAX@Z"
  "static void __cdecl OverloadedNewDelete::operator delete(void *)" = true.
Proof. vm_compute. reflexivity. Qed.
Example vec_0544 : v_sub 0 "??_VOverloadedNewDelete@@SAXPEAX@Z"
  "static void __cdecl OverloadedNewDelete::operator delete[](void *)" = true.
Proof. vm_compute. reflexivity. Qed.
Example vec_0545 : v_sub 0 "??HOverloadedNewDelete@@QEAAHH@Z"
  "int __cdecl OverloadedNewDelete::operator+(int)" = true.
Proof. vm_compute. reflexivity. Qed.
Example vec_0546 : v_sub 0 "??2TypedefNewDelete@@SAPAXI@Z"
  "static void * __cdecl TypedefNewDelete::operator new(unsigned int)" = true.
Proof. vm_compute. reflexivity. Qed.
Example vec_0547 : v_sub 0 "??_UTypedefNewDelete@@SAPAXI@Z"
  "static void * __cdecl TypedefNewDelete::operator new[](unsigned int)" = true.
Proof. vm_compute. reflexivity. Qed.
Example vec_0548 : v_sub 0 "??3TypedefNewDelete@@SAXPAX@Z"
  "static void __cdecl TypedefNewDelete::operator delete(void *)" = true.
Proof. vm_compute. reflexivity. Qed.
Example vec_0549 : v_sub 0 "??_VTypedefNewDelete@@SAXPAX@Z"
  "static void __cdecl TypedefNewDelete::operator delete[](void *)" = true.
Proof. vm_compute. reflexivity. Qed.
Example vec_0550 : v_sub 0 "?vector_func@@YQXXZ"
  "void __vectorcall vector_func(void)" = true.
Proof. vm_compute. reflexivity. Qed.
Example vec_0551 : v_sub 0 "?swift_func@@YSXXZ"
  "void __attribute__((__swiftcall__)) swift_func(void)" = true.
Proof. vm_compute. reflexivity. Qed.
Example vec_0552 : v_sub 0 "?swift_async_func@@YWXXZ"
  "void __attribute__((__swiftasynccall__)) swift_async_func(void)" = true.
Proof. vm_compute. reflexivity. Qed.
Example vec_0553 : v_sub 0 "??$fn_tmpl@$1?extern_c_func@@YAXXZ@@YAXXZ"
  "void __cdecl fn_tmpl<&void __cdecl extern_c_func(void)>(void)" = true.
Proof. vm_compute. reflexivity. Qed.
Example vec_0554 : v_sub 0 "?overloaded_fn@@$$J0YAXXZ"
  "extern ""C"" void __cdecl overloaded_fn(void)" = true.
Proof. vm_compute. reflexivity. Qed.
Example vec_0555 : v_sub 0 "?f@UnnamedType@@YAXQAPAU<unnamed-type-T1>@S@1@@Z"
  "void __cdecl UnnamedType::f(struct UnnamedType::S::<unnamed-type-T1> **const)" = true.
Proof. vm_compute. reflexivity. Qed.
Example vec_0556 : v_sub 0 "?f@UnnamedType@@YAXUT2@S@1@@Z"
  "void __cdecl UnnamedType::f(struct UnnamedType::S::T2)" = true.
Proof. vm_compute. reflexivity. Qed.
Example vec_0557 : v_sub 0 "?f@UnnamedType@@YAXPAUT4@S@1@@Z"
  "void __cdecl UnnamedType::f(struct UnnamedType::S::T4 *)" = true.
Proof. vm_compute. reflexivity. Qed.
Example vec_0558 : v_sub 0 "?f@UnnamedType@@YAXUT4@S@1@@Z"
  "void __cdecl UnnamedType::f(struct UnnamedType::S::T4)" = true.
Proof. vm_compute. reflexivity. Qed.
Example vec_0559 : v_sub 0 "?f@UnnamedType@@YAXUT5@S@1@@Z"
  "void __cdecl UnnamedType::f(struct UnnamedType::S::T5)" = true.
Proof. vm_compute. reflexivity. Qed.
Example vec_0560 : v_sub 0 "?f@UnnamedType@@YAXUT2@S@1@@Z"
  "void __cdecl UnnamedType::f(struct UnnamedType::S::T2)" = true.
Proof. vm_compute. reflexivity. Qed.
Example vec_0561 : v_sub 0 "?f@UnnamedType@@YAXUT4@S@1@@Z"
  "void __cdecl UnnamedType::f(struct UnnamedType::S::T4)" = true.
Proof. vm_compute. reflexivity. Qed.
Example vec_0562 : v_sub 0 "?f@UnnamedType@@YAXUT5@S@1@@Z"
  "void __cdecl UnnamedType::f(struct UnnamedType::S::T5)" = true.
Proof. vm_compute. reflexivity. Qed.
Example vec_0563 : v_sub 0 "?f@Atomic@@YAXU?$_Atomic@H@__clang@@@Z"
  "void __cdecl Atomic::f(struct __clang::_Atomic<int>)" = true.
Proof. vm_compute. reflexivity. Qed.
Example vec_0564 : v_sub 0 "?f@Complex@@YAXU?$_Complex@H@__clang@@@Z"
  "void __cdecl Complex::f(struct __clang::_Complex<int>)" = true.
Proof. vm_compute. reflexivity. Qed.
Example vec_0565 : v_sub 0 "?f@Float16@@YAXU_Float16@__clang@@@Z"
  "void __cdecl Float16::f(struct __clang::_Float16)" = true.
Proof. vm_compute. reflexivity. Qed.
Example vec_0566 : v_sub 0 "??0?$L@H@NS@@QEAA@XZ"
  "__cdecl NS::L<int>::L<int>(void)" = true.
Proof. vm_compute. reflexivity. Qed.
Example vec_0567 : v_sub 0 "??0Bar@Foo@@QEAA@XZ"
  "__cdecl Foo::Bar::Bar(void)" = true.
Proof. vm_compute. reflexivity. Qed.
Example vec_0568 : v_sub 0 "??0?$L@V?$H@PAH@PR26029@@@PR26029@@QAE@XZ"
  "__thiscall PR26029::L<class PR26029::H<int *>>::L<class PR26029::H<int *>>(void)" = true.
Proof. vm_compute. reflexivity. Qed.
Example vec_0569 : v_sub 0 "??$emplace_back@ABH@?$vector@HV?$allocator@H@std@@@std@@QAE?A?<decltype-auto>@@ABH@Z"
  "<decltype-auto> __thiscall std::vector<int, class std::allocator<int>>::emplace_back<int const &>(int const &)" = true.
Proof. vm_compute. reflexivity. Qed.
Example vec_0570 : v_sub 0 "?pub_foo@S@@QAEXXZ"
  "public: void __thiscall S::pub_foo(void)" = true.
Proof. vm_compute. reflexivity. Qed.
Example vec_0571 : v_sub 0 "?pub_stat_foo@S@@SAXXZ"
  "public: static void __cdecl S::pub_stat_foo(void)" = true.
Proof. vm_compute. reflexivity. Qed.
Example vec_0572 : v_sub 0 "?pub_virt_foo@S@@UAEXXZ"
  "public: virtual void __thiscall S::pub_virt_foo(void)" = true.
Proof. vm_compute. reflexivity. Qed.
Example vec_0573 : v_sub 0 "?prot_foo@S@@IAEXXZ"
  "protected: void __thiscall S::prot_foo(void)" = true.
Proof. vm_compute. reflexivity. Qed.
Example vec_0574 : v_sub 0 "?prot_stat_foo@S@@KAXXZ"
  "protected: static void __cdecl S::prot_stat_foo(void)" = true.
Proof. vm_compute. reflexivity. Qed.
Example vec_0575 : v_sub 0 "?prot_virt_foo@S@@MAEXXZ"
  "protected: virtual void __thiscall S::prot_virt_foo(void)" = true.
Proof. vm_compute. reflexivity. Qed.
Example vec_0576 : v_sub 0 "?priv_foo@S@@AAEXXZ"
  "private: void __thiscall S::priv_foo(void)" = true.
Proof. vm_compute. reflexivity. Qed.
Example vec_0577 : v_sub 0 "?priv_stat_foo@S@@CAXXZ"
  "private: static void __cdecl S::priv_stat_foo(void)" = true.
Proof. vm_compute. reflexivity. Qed.
Example vec_0578 : v_sub 0 "?priv_virt_foo@S@@EAEXXZ"
  "private: virtual void __thiscall S::priv_virt_foo(void)" = true.
Proof. vm_compute. reflexivity. Qed.
Example vec_0579 : v_sub 0 "??@a6a285da2eea70dba6b578022be61d81@"
  "??@a6a285da2eea70dba6b578022be61d81@" = true.
Proof. vm_compute. reflexivity. Qed.
Example vec_0580 : v_sub 0 "??@a6a285da2eea70dba6b578022be61d81@asdf"
  "??@a6a285da2eea70dba6b578022be61d81@" = true.
Proof. vm_compute. reflexivity. Qed.
Example vec_0581 : v_sub 0 "??@a6a285da2eea70dba6b578022be61d81@??_R4@"
  "??@a6a285da2eea70dba6b578022be61d81@??_R4@" = true.
Proof. vm_compute. reflexivity. Qed.
Example vec_0582 : v_sub 0 "?M@?@??L@@YAHXZ@4HA"
  "int `int __cdecl L(void)'::`0'::M" = true.
Proof. vm_compute. reflexivity. Qed.
Example vec_0583 : v_sub 0 "?M@?0??L@@YAHXZ@4HA"
  "int `int __cdecl L(void)'::`1'::M" = true.
Proof. vm_compute. reflexivity. Qed.
Example vec_0584 : v_sub 0 "?M@?1??L@@YAHXZ@4HA"
  "int `int __cdecl L(void)'::`2'::M" = true.
Proof. vm_compute. reflexivity. Qed.
Example vec_0585 : v_sub 0 "?M@?2??L@@YAHXZ@4HA"
  "int `int __cdecl L(void)'::`3'::M" = true.
Proof. vm_compute. reflexivity. Qed.
Example vec_0586 : v_sub 0 "?M@?3??L@@YAHXZ@4HA"
  "int `int __cdecl L(void)'::`4'::M" = true.
Proof. vm_compute. reflexivity. Qed.
Example vec_0587 : v_sub 0 "?M@?4??L@@YAHXZ@4HA"
  "int `int __cdecl L(void)'::`5'::M" = true.
Proof. vm_compute. reflexivity. Qed.
Example vec_0588 : v_sub 0 "?M@?5??L@@YAHXZ@4HA"
  "int `int __cdecl L(void)'::`6'::M" = true.
Proof. vm_compute. reflexivity. Qed.
Example vec_0589 : v_sub 0 "?M@?6??L@@YAHXZ@4HA"
  "int `int __cdecl L(void)'::`7'::M" = true.
Proof. vm_compute. reflexivity. Qed.
Example vec_0590 : v_sub 0 "?M@?7??L@@YAHXZ@4HA"
  "int `int __cdecl L(void)'::`8'::M" = true.
Proof. vm_compute. reflexivity. Qed.
Example vec_0591 : v_sub 0 "?M@?8??L@@YAHXZ@4HA"
  "int `int __cdecl L(void)'::`9'::M" = true.
Proof. vm_compute. reflexivity. Qed.
Example vec_0592 : v_sub 0 "?M@?9??L@@YAHXZ@4HA"
  "int `int __cdecl L(void)'::`10'::M" = true.
Proof. vm_compute. reflexivity. Qed.
Example vec_0593 : v_sub 0 "?M@?L@??L@@YAHXZ@4HA"
  "int `int __cdecl L(void)'::`11'::M" = true.
Proof. vm_compute. reflexivity. Qed.
Example vec_0594 : v_sub 0 "?M@?M@??L@@YAHXZ@4HA"
  "int `int __cdecl L(void)'::`12'::M" = true.
Proof. vm_compute. reflexivity. Qed.
Example vec_0595 : v_sub 0 "?M@?N@??L@@YAHXZ@4HA"
  "int `int __cdecl L(void)'::`13'::M" = true.
Proof. vm_compute. reflexivity. Qed.
Example vec_0596 : v_sub 0 "?M@?O@??L@@YAHXZ@4HA"
  "int `int __cdecl L(void)'::`14'::M" = true.
Proof. vm_compute. reflexivity. Qed.
Example vec_0597 : v_sub 0 "?M@?P@??L@@YAHXZ@4HA"
  "int `int __cdecl L(void)'::`15'::M" = true.
Proof. vm_compute. reflexivity. Qed.
Example vec_0598 : v_sub 0 "?M@?BA@??L@@YAHXZ@4HA"
  "int `int __cdecl L(void)'::`16'::M" = true.
Proof. vm_compute. reflexivity. Qed.
Example vec_0599 : v_sub 0 "?M@?BB@??L@@YAHXZ@4HA"
  "int `int __cdecl L(void)'::`17'::M" = true.
Proof. vm_compute. reflexivity. Qed.
Example vec_0600 : v_sub 0 "?j@?1??L@@YAHXZ@4UJ@@A"
  "struct J `int __cdecl L(void)'::`2'::j" = true.
Proof. vm_compute. reflexivity. Qed.
Example vec_0601 : v_sub 0 "?NN@0XX@@3HA"
  "int XX::NN::NN" = true.
Proof. vm_compute. reflexivity. Qed.
Example vec_0602 : v_sub 0 "?MM@0NN@XX@@3HA"
  "int XX::NN::MM::MM" = true.
Proof. vm_compute. reflexivity. Qed.
Example vec_0603 : v_sub 0 "?NN@MM@0XX@@3HA"
  "int XX::NN::MM::NN" = true.
Proof. vm_compute. reflexivity. Qed.
Example vec_0604 : v_sub 0 "?OO@0NN@01XX@@3HA"
  "int XX::NN::OO::NN::OO::OO" = true.
Proof. vm_compute. reflexivity. Qed.
Example vec_0605 : v_sub 0 "?NN@OO@010XX@@3HA"
  "int XX::NN::OO::NN::OO::NN" = true.
Proof. vm_compute. reflexivity. Qed.
Example vec_0606 : v_sub 0 "?M@?1??0@YAHXZ@4HA"
  "int `int __cdecl M(void)'::`2'::M" = true.
Proof. vm_compute. reflexivity. Qed.
Example vec_0607 : v_sub 0 "?L@?2??M@0?2??0@YAHXZ@QEAAHXZ@4HA"
  "int `public: int __cdecl `int __cdecl L(void)'::`3'::L::M(void)'::`3'::L" = true.
Proof. vm_compute. reflexivity. Qed.
Example vec_0608 : v_sub 0 "?M@?2??0L@?2??1@YAHXZ@QEAAHXZ@4HA"
  "int `public: int __cdecl `int __cdecl L(void)'::`3'::L::M(void)'::`3'::M" = true.
Proof. vm_compute. reflexivity. Qed.
Example vec_0609 : v_sub 0 "?M@?1???$L@H@@YAHXZ@4HA"
  "int `int __cdecl L<int>(void)'::`2'::M" = true.
Proof. vm_compute. reflexivity. Qed.
Example vec_0610 : v_sub 0 "?SN@?$NS@H@NS@@QEAAHXZ"
  "int __cdecl NS::NS<int>::SN(void)" = true.
Proof. vm_compute. reflexivity. Qed.
Example vec_0611 : v_sub 0 "?NS@?1??SN@?$NS@H@0@QEAAHXZ@4HA"
  "int `public: int __cdecl NS::NS<int>::SN(void)'::`2'::NS" = true.
Proof. vm_compute. reflexivity. Qed.
Example vec_0612 : v_sub 0 "?SN@?1??0?$NS@H@NS@@QEAAHXZ@4HA"
  "int `public: int __cdecl NS::NS<int>::SN(void)'::`2'::SN" = true.
Proof. vm_compute. reflexivity. Qed.
Example vec_0613 : v_sub 0 "?NS@?1??SN@?$NS@H@10@QEAAHXZ@4HA"
  "int `public: int __cdecl NS::SN::NS<int>::SN(void)'::`2'::NS" = true.
Proof. vm_compute. reflexivity. Qed.
Example vec_0614 : v_sub 0 "?SN@?1??0?$NS@H@0NS@@QEAAHXZ@4HA"
  "int `public: int __cdecl NS::SN::NS<int>::SN(void)'::`2'::SN" = true.
Proof. vm_compute. reflexivity. Qed.
Example vec_0615 : v_sub 0 "?X@?$C@H@C@0@2HB"
  "static int const X::C::C<int>::X" = true.
Proof. vm_compute. reflexivity. Qed.
Example vec_0616 : v_sub 0 "?X@?$C@H@C@1@2HB"
  "static int const C<int>::C::C<int>::X" = true.
Proof. vm_compute. reflexivity. Qed.
Example vec_0617 : v_sub 0 "?X@?$C@H@C@2@2HB"
  "static int const C::C::C<int>::X" = true.
Proof. vm_compute. reflexivity. Qed.
Example vec_0618 : v_sub 0 "?C@?1??B@?$C@H@0101A@@QEAAHXZ@4U201013@A"
  "struct A::B::C::B::C::C<int> `public: int __cdecl A::B::C::B::C::C<int>::B(void)'::`2'::C" = true.
Proof. vm_compute. reflexivity. Qed.
Example vec_0619 : v_sub 0 "?B@?1??0?$C@H@C@020A@@QEAAHXZ@4HA"
  "int `public: int __cdecl A::B::C::B::C::C<int>::B(void)'::`2'::B" = true.
Proof. vm_compute. reflexivity. Qed.
Example vec_0620 : v_sub 0 "?A@?1??B@?$C@H@C@1310@QEAAHXZ@4HA"
  "int `public: int __cdecl A::B::C::B::C::C<int>::B(void)'::`2'::A" = true.
Proof. vm_compute. reflexivity. Qed.
Example vec_0621 : v_sub 0 "?a@a@a@a@a@a@a@a@a@a@a@a@a@a@a@a@a@a@a@a@a@a@a@a@a@a@a@a@a@a@a@a@a@a@a@a@a@a@a@a@a@a@a@a@a@a@a@a@a@a@a@a@a@a@a@a@a@a@a@a@a@a@a@a@a@a@a@a@a@a@a@a@a@a@a@a@a@a@a@a@a@a@a@a@a@a@a@a@a@a@a@a@a@a@a@a@a@a@a@a@a@a@a@a@a@a@a@a@a@a@a@a@a@a@a@a@a@a@a@a@a@a@a@a@a@a@a@a@a@a@a@a@a@a@a@a@a@a@a@a@a@a@a@a@a@a@a@a@a@a@a@a@a@a@a@a@a@a@a@a@a@a@a@a@a@a@a@a@a@a@a@a@a@a@a@a@a@a@a@a@a@a@a@a@a@a@a@a@a@a@a@a@a@a@a@a@a@a@a@a@a@a@a@a@a@a@a@a@a@a@a@a@a@a@a@a@a@a@a@a@a@a@a@a@a@a@a@a@a@a@a@a@a@a@a@a@a@a@a@a@a@a@a@a@a@a@a@a@a@a@a@a@a@a@a@a@a@a@a@a@a@a@a@a@a@a@a@a@a@a@a@a@a@a@a@a@a@a@a@a@a@a@a@a@a@a@a@a@a@a@a@a@a@a@a@a@a@a@a@a@a@a@a@a@a@a@a@a@a@a@a@a@a@a@a@a@a@a@a@a@a@a@a@a@a@a@a@a@a@a@a@a@a@a@a@a@a@a@a@a@a@a@a@a@a@a@a@a@a@a@a@a@a@a@a@a@a@a@a@a@a@a@a@a@a@a@a@a@a@a@a@a@a@a@a@a@a@a@a@a@a@a@a@a@a@a@a@a@a@a@a@a@a@a@a@a@a@a@a@a@a@a@a@a@a@a@a@a@a@a@a@a@a@a@a@a@a@a@a@a@a@a@a@a@a@a@a@a@a@a@a@a@a@a@a@a@a@a@a@a@a@a@a@a@a@a@a@a@a@a@a@a@a@a@a@a@a@a@a@a@a@a@a@a@a@a@a@a@a@a@a@a@a@a@a@a@a@a@a@a@a@a@a@a@a@a@a@a@a@a@a@a@a@a@a@a@a@a@a@a@a@a@a@a@a@a@a@a@a@a@a@a@a@@3HA"
  "int a::a::a::a::a::a::a::a::a::a::a::a::a::a::a::a::a::a::a::a::a::a::a::a::a::a::a::a::a::a::a::a::a::a::a::a::a::a::a::a::a::a::a::a::a::a::a::a::a::a::a::a::a::a::a::a::a::a::a::a::a::a::a::a::a::a::a::a::a::a::a::a::a::a::a::a::a::a::a::a::a::a::a::a::a::a::a::a::a::a::a::a::a::a::a::a::a::a::a::a::a::a::a::a::a::a::a::a::a::a::a::a::a::a::a::a::a::a::a::a::a::a::a::a::a::a::a::a::a::a::a::a::a::a::a::a::a::a::a::a::a::a::a::a::a::a::a::a::a::a::a::a::a::a::a::a::a::a::a::a::a::a::a::a::a::a::a::a::a::a::a::a::a::a::a::a::a::a::a::a::a::a::a::a::a::a::a::a::a::a::a::a::a::a::a::a::a::a::a::a::a::a::a::a::a::a::a::a::a::a::a::a::a::a::a::a::a::a::a::a::a::a::a::a::a::a::a::a::a::a::a::a::a::a::a::a::a::a::a::a::a::a::a::a::a::a::a::a::a::a::a::a::a::a::a::a::a::a::a::a::a::a::a::a::a::a::a::a::a::a::a::a::a::a::a::a::a::a::a::a::a::a::a::a::a::a::a::a::a::a::a::a::a::a::a::a::a::a::a::a::a::a::a::a::a::a::a::a::a::a::a::a::a::a::a::a::a::a::a::a::a::a::a::a::a::a::a::a::a::a::a::a::a::a::a::a::a::a::a::a::a::a::a::a::a::a::a::a::a::a::a::a::a::a::a::a::a::a::a::a::a::a::a::a::a::a::a::a::a::a::a::a::a::a::a::a::a::a::a::a::a::a::a::a::a::a::a::a::a::a::a::a::a::a::a::a::a::a::a::a::a::a::a::a::a::a::a::a::a::a::a::a::a::a::a::a::a::a::a::a::a::a::a::a::a::a::a::a::a::a::a::a::a::a::a::a::a::a::a::a::a::a::a::a::a::a::a::a::a::a::a::a::a::a::a::a::a::a::a::a::a::a::a::a::a::a::a::a::a::a::a::a::a::a::a::a::a::a::a::a::a::a::a::a::a::a::a::a::a::a::a::a::a::a::a::a::a::a::a::a::a::a::a::a::a::a::a::a::a::a::a::a::a" = true.
Proof. vm_compute. reflexivity. Qed.
Example vec_0622 : v_sub 0 "??0Base@@QEAA@XZ"
  "__cdecl Base::Base(void)" = true.
Proof. vm_compute. reflexivity. Qed.
Example vec_0623 : v_sub 0 "??1Base@@UEAA@XZ"
  "virtual __cdecl Base::~Base(void)" = true.
Proof. vm_compute. reflexivity. Qed.
Example vec_0624 : v_sub 0 "??2@YAPEAX_K@Z"
  "void * __cdecl operator new(unsigned __int64)" = true.
Proof. vm_compute. reflexivity. Qed.
Example vec_0625 : v_sub 0 "??3@YAXPEAX_K@Z"
  "void __cdecl operator delete(void *, unsigned __int64)" = true.
Proof. vm_compute. reflexivity. Qed.
Example vec_0626 : v_sub 0 "??4Base@@QEAAHH@Z"
  "int __cdecl Base::operator=(int)" = true.
Proof. vm_compute. reflexivity. Qed.
Example vec_0627 : v_sub 0 "??6Base@@QEAAHH@Z"
  "int __cdecl Base::operator<<(int)" = true.
Proof. vm_compute. reflexivity. Qed.
Example vec_0628 : v_sub 0 "??5Base@@QEAAHH@Z"
  "int __cdecl Base::operator>>(int)" = true.
Proof. vm_compute. reflexivity. Qed.
Example vec_0629 : v_sub 0 "??7Base@@QEAAHXZ"
  "int __cdecl Base::operator!(void)" = true.
Proof. vm_compute. reflexivity. Qed.
Example vec_0630 : v_sub 0 "??8Base@@QEAAHH@Z"
  "int __cdecl Base::operator==(int)" = true.
Proof. vm_compute. reflexivity. Qed.
Example vec_0631 : v_sub 0 "??9Base@@QEAAHH@Z"
  "int __cdecl Base::operator!=(int)" = true.
Proof. vm_compute. reflexivity. Qed.
Example vec_0632 : v_sub 0 "??ABase@@QEAAHH@Z"
  "int __cdecl Base::operator[](int)" = true.
Proof. vm_compute. reflexivity. Qed.
Example vec_0633 : v_sub 0 "??BBase@@QEAAHXZ"
  "__cdecl Base::operator int(void)" = true.
Proof. vm_compute. reflexivity. Qed.
Example vec_0634 : v_sub 0 "??CBase@@QEAAHXZ"
  "int __cdecl Base::operator->(void)" = true.
Proof. vm_compute. reflexivity. Qed.
Example vec_0635 : v_sub 0 "??DBase@@QEAAHXZ"
  "int __cdecl Base::operator*(void)" = true.
Proof. vm_compute. reflexivity. Qed.
Example vec_0636 : v_sub 0 "??EBase@@QEAAHXZ"
  "int __cdecl Base::operator++(void)" = true.
Proof. vm_compute. reflexivity. Qed.
Example vec_0637 : v_sub 0 "??EBase@@QEAAHH@Z"
  "int __cdecl Base::operator++(int)" = true.
Proof. vm_compute. reflexivity. Qed.
Example vec_0638 : v_sub 0 "??FBase@@QEAAHXZ"
  "int __cdecl Base::operator--(void)" = true.
Proof. vm_compute. reflexivity. Qed.
Example vec_0639 : v_sub 0 "??FBase@@QEAAHH@Z"
  "int __cdecl Base::operator--(int)" = true.
Proof. vm_compute. reflexivity. Qed.
Example vec_0640 : v_sub 0 "??GBase@@QEAAHH@Z"
  "int __cdecl Base::operator-(int)" = true.
Proof. vm_compute. reflexivity. Qed.
Example vec_0641 : v_sub 0 "??HBase@@QEAAHH@Z"
  "int __cdecl Base::operator+(int)" = true.
Proof. vm_compute. reflexivity. Qed.
Example vec_0642 : v_sub 0 "??IBase@@QEAAHH@Z"
  "int __cdecl Base::operator&(int)" = true.
Proof. vm_compute. reflexivity. Qed.
Example vec_0643 : v_sub 0 "??JBase@@QEAAHH@Z"
  "int __cdecl Base::operator->*(int)" = true.
Proof. vm_compute. reflexivity. Qed.
Example vec_0644 : v_sub 0 "??KBase@@QEAAHH@Z"
  "int __cdecl Base::operator/(int)" = true.
Proof. vm_compute. reflexivity. Qed.
Example vec_0645 : v_sub 0 "??LBase@@QEAAHH@Z"
  "int __cdecl Base::operator%(int)" = true.
Proof. vm_compute. reflexivity. Qed.
Example vec_0646 : v_sub 0 "??MBase@@QEAAHH@Z"
  "int __cdecl Base::operator<(int)" = true.
Proof. vm_compute. reflexivity. Qed.
Example vec_0647 : v_sub 0 "??NBase@@QEAAHH@Z"
  "int __cdecl Base::operator<=(int)" = true.
Proof. vm_compute. reflexivity. Qed.
Example vec_0648 : v_sub 0 "??OBase@@QEAAHH@Z"
  "int __cdecl Base::operator>(int)" = true.
Proof. vm_compute. reflexivity. Qed.
Example vec_0649 : v_sub 0 "??PBase@@QEAAHH@Z"
  "int __cdecl Base::operator>=(int)" = true.
Proof. vm_compute. reflexivity. Qed.
Example vec_0650 : v_sub 0 "??QBase@@QEAAHH@Z"
  "int __cdecl Base::operator,(int)" = true.
Proof. vm_compute. reflexivity. Qed.
Example vec_0651 : v_sub 0 "??RBase@@QEAAHXZ"
  "int __cdecl Base::operator()(void)" = true.
Proof. vm_compute. reflexivity. Qed.
Example vec_0652 : v_sub 0 "??SBase@@QEAAHXZ"
  "int __cdecl Base::operator~(void)" = true.
Proof. vm_compute. reflexivity. Qed.
Example vec_0653 : v_sub 0 "??TBase@@QEAAHH@Z"
  "int __cdecl Base::operator^(int)" = true.
Proof. vm_compute. reflexivity. Qed.
Example vec_0654 : v_sub 0 "??UBase@@QEAAHH@Z"
  "int __cdecl Base::operator|(int)" = true.
Proof. vm_compute. reflexivity. Qed.
Example vec_0655 : v_sub 0 "??VBase@@QEAAHH@Z"
  "int __cdecl Base::operator&&(int)" = true.
Proof. vm_compute. reflexivity. Qed.
Example vec_0656 : v_sub 0 "??WBase@@QEAAHH@Z"
  "int __cdecl Base::operator||(int)" = true.
Proof. vm_compute. reflexivity. Qed.
Example vec_0657 : v_sub 0 "??XBase@@QEAAHH@Z"
  "int __cdecl Base::operator*=(int)" = true.
Proof. vm_compute. reflexivity. Qed.
Example vec_0658 : v_sub 0 "??YBase@@QEAAHH@Z"
  "int __cdecl Base::operator+=(int)" = true.
Proof. vm_compute. reflexivity. Qed.
Example vec_0659 : v_sub 0 "??ZBase@@QEAAHH@Z"
  "int __cdecl Base::operator-=(int)" = true.
Proof. vm_compute. reflexivity. Qed.
Example vec_0660 : v_sub 0 "??_0Base@@QEAAHH@Z"
  "int __cdecl Base::operator/=(int)" = true.
Proof. vm_compute. reflexivity. Qed.
Example vec_0661 : v_sub 0 "??_1Base@@QEAAHH@Z"
  "int __cdecl Base::operator%=(int)" = true.
Proof. vm_compute. reflexivity. Qed.
Example vec_0662 : v_sub 0 "??_2Base@@QEAAHH@Z"
  "int __cdecl Base::operator>>=(int)" = true.
Proof. vm_compute. reflexivity. Qed.
Example vec_0663 : v_sub 0 "??_3Base@@QEAAHH@Z"
  "int __cdecl Base::operator<<=(int)" = true.
Proof. vm_compute. reflexivity. Qed.
Example vec_0664 : v_sub 0 "??_4Base@@QEAAHH@Z"
  "int __cdecl Base::operator&=(int)" = true.
Proof. vm_compute. reflexivity. Qed.
Example vec_0665 : v_sub 0 "??_5Base@@QEAAHH@Z"
  "int __cdecl Base::operator|=(int)" = true.
Proof. vm_compute. reflexivity. Qed.
Example vec_0666 : v_sub 0 "??_6Base@@QEAAHH@Z"
  "int __cdecl Base::operator^=(int)" = true.
Proof. vm_compute. reflexivity. Qed.
Example vec_0667 : v_sub 0 "??_7Base@@6B@"
  "const Base::`vftable'" = true.
Proof. vm_compute. reflexivity. Qed.
Example vec_0668 : v_sub 0 "??_7A@B@@6BC@D@@@"
  "const B::A::`vftable'{for `D::C'}" = true.
Proof. vm_compute. reflexivity. Qed.
Example vec_0669 : v_sub 0 "??_8Middle2@@7B@"
  "const Middle2::`vbtable'" = true.
Proof. vm_compute. reflexivity. Qed.
Example vec_0670 : v_sub 0 "??_9Base@@$B7AA"
  "[thunk]: __cdecl Base::`vcall'{8, {flat}}" = true.
Proof. vm_compute. reflexivity. Qed.
Example vec_0671 : v_sub 0 "??_B?1??getS@@YAAAUS@@XZ@51"
  "`struct S & __cdecl getS(void)'::`2'::`local static guard'{2}" = true.
Proof. vm_compute. reflexivity. Qed.
Example vec_0672 : v_sub 0 "??_C@_02PCEFGMJL@hi?$AA@"
  """hi""" = true.
Proof. vm_compute. reflexivity. Qed.
Example vec_0673 : v_sub 0 "??_DDiamond@@QEAAXXZ"
  "void __cdecl Diamond::`vbase dtor'(void)" = true.
Proof. vm_compute. reflexivity. Qed.
Example vec_0674 : v_sub 0 "??_EBase@@UEAAPEAXI@Z"
  "virtual void * __cdecl Base::`vector deleting dtor'(unsigned int)" = true.
Proof. vm_compute. reflexivity. Qed.
Example vec_0675 : v_sub 0 "??_EBase@@G3AEPAXI@Z"
  "[thunk]: private: void * __thiscall Base::`vector deleting dtor'`adjustor{4}'(unsigned int)" = true.
Proof. vm_compute. reflexivity. Qed.
Example vec_0676 : v_sub 0 "??_F?$SomeTemplate@H@@QAEXXZ"
  "void __thiscall SomeTemplate<int>::`default constructor closure'(void)" = true.
Proof. vm_compute. reflexivity. Qed.
Example vec_0677 : v_sub 0 "??_GBase@@UEAAPEAXI@Z"
  "virtual void * __cdecl Base::`scalar deleting dtor'(unsigned int)" = true.
Proof. vm_compute. reflexivity. Qed.
Example vec_0678 : v_sub 0 "??_H@YAXPEAX_K1P6APEAX0@Z@Z"
  "void __cdecl `vector ctor iterator'(void *, unsigned __int64, unsigned __int64, void * (__cdecl *)(void *))" = true.
Proof. vm_compute. reflexivity. Qed.
Example vec_0679 : v_sub 0 "??_I@YAXPEAX_K1P6AX0@Z@Z"
  "void __cdecl `vector dtor iterator'(void *, unsigned __int64, unsigned __int64, void (__cdecl *)(void *))" = true.
Proof. vm_compute. reflexivity. Qed.
Example vec_0680 : v_sub 0 "??_JBase@@UEAAPEAXI@Z"
  "virtual void * __cdecl Base::`vector vbase ctor iterator'(unsigned int)" = true.
Proof. vm_compute. reflexivity. Qed.
Example vec_0681 : v_sub 0 "??_KBase@@UEAAPEAXI@Z"
  "virtual void * __cdecl Base::`virtual displacement map'(unsigned int)" = true.
Proof. vm_compute. reflexivity. Qed.
Example vec_0682 : v_sub 0 "??_LBase@@UEAAPEAXI@Z"
  "virtual void * __cdecl Base::`eh vector ctor iterator'(unsigned int)" = true.
Proof. vm_compute. reflexivity. Qed.
Example vec_0683 : v_sub 0 "??_MBase@@UEAAPEAXI@Z"
  "virtual void * __cdecl Base::`eh vector dtor iterator'(unsigned int)" = true.
Proof. vm_compute. reflexivity. Qed.
Example vec_0684 : v_sub 0 "??_NBase@@UEAAPEAXI@Z"
  "virtual void * __cdecl Base::`eh vector vbase ctor iterator'(unsigned int)" = true.
Proof. vm_compute. reflexivity. Qed.
Example vec_0685 : v_sub 0 "??_O?$SomeTemplate@H@@QAEXXZ"
  "void __thiscall SomeTemplate<int>::`copy ctor closure'(void)" = true.
Proof. vm_compute. reflexivity. Qed.
Example vec_0686 : v_sub 0 "??_SBase@@6B@"
  "const Base::`local vftable'" = true.
Proof. vm_compute. reflexivity. Qed.
Example vec_0687 : v_sub 0 "??_TDerived@@QEAAXXZ"
  "void __cdecl Derived::`local vftable ctor closure'(void)" = true.
Proof. vm_compute. reflexivity. Qed.
Example vec_0688 : v_sub 0 "??_U@YAPEAX_KAEAVklass@@@Z"
  "void * __cdecl operator new[](unsigned __int64, class klass &)" = true.
Proof. vm_compute. reflexivity. Qed.
Example vec_0689 : v_sub 0 "??_V@YAXPEAXAEAVklass@@@Z"
  "void __cdecl operator delete[](void *, class klass &)" = true.
Proof. vm_compute. reflexivity. Qed.
Example vec_0690 : v_sub 0 "??_R0?AUBase@@@8"
  "struct Base `RTTI Type Descriptor'" = true.
Proof. vm_compute. reflexivity. Qed.
Example vec_0691 : v_sub 0 ".?AUBase@@"
  "struct Base `RTTI Type Descriptor Name'" = true.
Proof. vm_compute. reflexivity. Qed.
Example vec_0692 : v_sub 0 "??_R1A@?0A@EA@Base@@8"
  "Base::`RTTI Base Class Descriptor at (0, -1, 0, 64)'" = true.
Proof. vm_compute. reflexivity. Qed.
Example vec_0693 : v_sub 0 "??_R2Base@@8"
  "Base::`RTTI Base Class Array'" = true.
Proof. vm_compute. reflexivity. Qed.
Example vec_0694 : v_sub 0 "??_R3Base@@8"
  "Base::`RTTI Class Hierarchy Descriptor'" = true.
Proof. vm_compute. reflexivity. Qed.
Example vec_0695 : v_sub 0 "??_R4Base@@6B@"
  "const Base::`RTTI Complete Object Locator'" = true.
Proof. vm_compute. reflexivity. Qed.
Example vec_0696 : v_sub 0 "??__EFoo@@YAXXZ"
  "void __cdecl `dynamic initializer for 'Foo''(void)" = true.
Proof. vm_compute. reflexivity. Qed.
Example vec_0697 : v_sub 0 "??__E?i@C@@0HA@@YAXXZ"
  "void __cdecl `dynamic initializer for `private: static int C::i''(void)" = true.
Proof. vm_compute. reflexivity. Qed.
Example vec_0698 : v_sub 0 "??__FFoo@@YAXXZ"
  "void __cdecl `dynamic atexit destructor for 'Foo''(void)" = true.
Proof. vm_compute. reflexivity. Qed.
Example vec_0699 : v_sub 0 "??__F_decisionToDFA@XPathLexer@@0V?$vector@VDFA@dfa@antlr4@@V?$allocator@VDFA@dfa@antlr4@@@std@@@std@@A@YAXXZ"
  "void __cdecl `dynamic atexit destructor for `private: static class std::vector<class antlr4::dfa::DFA, class std::allocator<class antlr4::dfa::DFA>> XPathLexer::_decisionToDFA''(void)" = true.
Proof. vm_compute. reflexivity. Qed.
Example vec_0700 : v_sub 0 "??__J?1??f@@YAAAUS@@XZ@51"
  "`struct S & __cdecl f(void)'::`2'::`local static thread guard'{2}" = true.
Proof. vm_compute. reflexivity. Qed.
Example vec_0701 : v_sub 0 "??__K_deg@@YAHO@Z"
  "int __cdecl operator """"_deg(long double)" = true.
Proof. vm_compute. reflexivity. Qed.
Example vec_0702 : v_eq 0 "?func@MyClass@@UEAAHHH@Z"
  "public: virtual int __cdecl MyClass::func(int, int)" = true.
Proof. vm_compute. reflexivity. Qed.
Example vec_0703 : v_eq 1 "?func@MyClass@@UEAAHHH@Z"
  "public: virtual int MyClass::func(int, int)" = true.
Proof. vm_compute. reflexivity. Qed.
Example vec_0704 : v_eq 16 "?func@MyClass@@UEAAHHH@Z"
  "public: virtual __cdecl MyClass::func(int, int)" = true.
Proof. vm_compute. reflexivity. Qed.
Example vec_0705 : v_eq 4 "?func@MyClass@@UEAAHHH@Z"
  "virtual int __cdecl MyClass::func(int, int)" = true.
Proof. vm_compute. reflexivity. Qed.
Example vec_0706 : v_eq 8 "?func@MyClass@@UEAAHHH@Z"
  "public: int __cdecl MyClass::func(int, int)" = true.
Proof. vm_compute. reflexivity. Qed.
Example vec_0707 : v_eq 32 "?func@MyClass@@UEAAHHH@Z"
  "public: virtual int __cdecl MyClass::func(int, int)" = true.
Proof. vm_compute. reflexivity. Qed.
Example vec_0708 : v_eq 61 "?func@MyClass@@UEAAHHH@Z"
  "MyClass::func(int, int)" = true.
Proof. vm_compute. reflexivity. Qed.
Example vec_0709 : v_eq 0 "?array2d@@3PAY09HA"
  "int (*array2d)[10]" = true.
Proof. vm_compute. reflexivity. Qed.
Example vec_0710 : v_eq 1 "?array2d@@3PAY09HA"
  "int (*array2d)[10]" = true.
Proof. vm_compute. reflexivity. Qed.
Example vec_0711 : v_eq 16 "?array2d@@3PAY09HA"
  "int (*array2d)[10]" = true.
Proof. vm_compute. reflexivity. Qed.
Example vec_0712 : v_eq 4 "?array2d@@3PAY09HA"
  "int (*array2d)[10]" = true.
Proof. vm_compute. reflexivity. Qed.
Example vec_0713 : v_eq 8 "?array2d@@3PAY09HA"
  "int (*array2d)[10]" = true.
Proof. vm_compute. reflexivity. Qed.
Example vec_0714 : v_eq 32 "?array2d@@3PAY09HA"
  "array2d" = true.
Proof. vm_compute. reflexivity. Qed.
Example vec_0715 : v_eq 61 "?array2d@@3PAY09HA"
  "array2d" = true.
Proof. vm_compute. reflexivity. Qed.
Example vec_0716 : v_eq 0 "?a@abc@@3PAY09HA"
  "int (*abc::a)[10]" = true.
Proof. vm_compute. reflexivity. Qed.
Example vec_0717 : v_eq 1 "?a@abc@@3PAY09HA"
  "int (*abc::a)[10]" = true.
Proof. vm_compute. reflexivity. Qed.
Example vec_0718 : v_eq 16 "?a@abc@@3PAY09HA"
  "int (*abc::a)[10]" = true.
Proof. vm_compute. reflexivity. Qed.
Example vec_0719 : v_eq 4 "?a@abc@@3PAY09HA"
  "int (*abc::a)[10]" = true.
Proof. vm_compute. reflexivity. Qed.
Example vec_0720 : v_eq 8 "?a@abc@@3PAY09HA"
  "int (*abc::a)[10]" = true.
Proof. vm_compute. reflexivity. Qed.
Example vec_0721 : v_eq 32 "?a@abc@@3PAY09HA"
  "abc::a" = true.
Proof. vm_compute. reflexivity. Qed.
Example vec_0722 : v_eq 61 "?a@abc@@3PAY09HA"
  "abc::a" = true.
Proof. vm_compute. reflexivity. Qed.
Example vec_0723 : v_eq 0 "?x@@3PEAEEA"
  "unsigned char *x" = true.
Proof. vm_compute. reflexivity. Qed.
Example vec_0724 : v_eq 1 "?x@@3PEAEEA"
  "unsigned char *x" = true.
Proof. vm_compute. reflexivity. Qed.
Example vec_0725 : v_eq 16 "?x@@3PEAEEA"
  "unsigned char *x" = true.
Proof. vm_compute. reflexivity. Qed.
Example vec_0726 : v_eq 4 "?x@@3PEAEEA"
  "unsigned char *x" = true.
Proof. vm_compute. reflexivity. Qed.
Example vec_0727 : v_eq 8 "?x@@3PEAEEA"
  "unsigned char *x" = true.
Proof. vm_compute. reflexivity. Qed.
Example vec_0728 : v_eq 32 "?x@@3PEAEEA"
  "x" = true.
Proof. vm_compute. reflexivity. Qed.
Example vec_0729 : v_eq 61 "?x@@3PEAEEA"
  "x" = true.
Proof. vm_compute. reflexivity. Qed.
Example vec_0730 : v_sub 0 "?a1@@YAXXZ"
  "void __cdecl a1(void)" = true.
Proof. vm_compute. reflexivity. Qed.
Example vec_0731 : v_sub 0 "?a2@@YAHXZ"
  "int __cdecl a2(void)" = true.
Proof. vm_compute. reflexivity. Qed.
Example vec_0732 : v_sub 0 "?a3@@YA?BHXZ"
  "int const __cdecl a3(void)" = true.
Proof. vm_compute. reflexivity. Qed.
Example vec_0733 : v_sub 0 "?a4@@YA?CHXZ"
  "int volatile __cdecl a4(void)" = true.
Proof. vm_compute. reflexivity. Qed.
Example vec_0734 : v_sub 0 "?a5@@YA?DHXZ"
  "int const volatile __cdecl a5(void)" = true.
Proof. vm_compute. reflexivity. Qed.
Example vec_0735 : v_sub 0 "?a6@@YAMXZ"
  "float __cdecl a6(void)" = true.
Proof. vm_compute. reflexivity. Qed.
Example vec_0736 : v_sub 0 "?b1@@YAPAHXZ"
  "int * __cdecl b1(void)" = true.
Proof. vm_compute. reflexivity. Qed.
Example vec_0737 : v_sub 0 "?b2@@YAPBDXZ"
  "char const * __cdecl b2(void)" = true.
Proof. vm_compute. reflexivity. Qed.
Example vec_0738 : v_sub 0 "?b3@@YAPAMXZ"
  "float * __cdecl b3(void)" = true.
Proof. vm_compute. reflexivity. Qed.
Example vec_0739 : v_sub 0 "?b4@@YAPBMXZ"
  "float const * __cdecl b4(void)" = true.
Proof. vm_compute. reflexivity. Qed.
Example vec_0740 : v_sub 0 "?b5@@YAPCMXZ"
  "float volatile * __cdecl b5(void)" = true.
Proof. vm_compute. reflexivity. Qed.
Example vec_0741 : v_sub 0 "?b6@@YAPDMXZ"
  "float const volatile * __cdecl b6(void)" = true.
Proof. vm_compute. reflexivity. Qed.
Example vec_0742 : v_sub 0 "?b7@@YAAAMXZ"
  "float & __cdecl b7(void)" = true.
Proof. vm_compute. reflexivity. Qed.
Example vec_0743 : v_sub 0 "?b8@@YAABMXZ"
  "float const & __cdecl b8(void)" = true.
Proof. vm_compute. reflexivity. Qed.
Example vec_0744 : v_sub 0 "?b9@@YAACMXZ"
  "float volatile & __cdecl b9(void)" = true.
Proof. vm_compute. reflexivity. Qed.
Example vec_0745 : v_sub 0 "?b10@@YAADMXZ"
  "float const volatile & __cdecl b10(void)" = true.
Proof. vm_compute. reflexivity. Qed.
Example vec_0746 : v_sub 0 "?b11@@YAPAPBDXZ"
  "char const ** __cdecl b11(void)" = true.
Proof. vm_compute. reflexivity. Qed.
Example vec_0747 : v_sub 0 "?c1@@YA?AVA@@XZ"
  "class A __cdecl c1(void)" = true.
Proof. vm_compute. reflexivity. Qed.
Example vec_0748 : v_sub 0 "?c2@@YA?BVA@@XZ"
  "class A const __cdecl c2(void)" = true.
Proof. vm_compute. reflexivity. Qed.
Example vec_0749 : v_sub 0 "?c3@@YA?CVA@@XZ"
  "class A volatile __cdecl c3(void)" = true.
Proof. vm_compute. reflexivity. Qed.
Example vec_0750 : v_sub 0 "?c4@@YA?DVA@@XZ"
  "class A const volatile __cdecl c4(void)" = true.
Proof. vm_compute. reflexivity. Qed.
Example vec_0751 : v_sub 0 "?c5@@YAPBVA@@XZ"
  "class A const * __cdecl c5(void)" = true.
Proof. vm_compute. reflexivity. Qed.
Example vec_0752 : v_sub 0 "?c6@@YAPCVA@@XZ"
  "class A volatile * __cdecl c6(void)" = true.
Proof. vm_compute. reflexivity. Qed.
Example vec_0753 : v_sub 0 "?c7@@YAPDVA@@XZ"
  "class A const volatile * __cdecl c7(void)" = true.
Proof. vm_compute. reflexivity. Qed.
Example vec_0754 : v_sub 0 "?c8@@YAAAVA@@XZ"
  "class A & __cdecl c8(void)" = true.
Proof. vm_compute. reflexivity. Qed.
Example vec_0755 : v_sub 0 "?c9@@YAABVA@@XZ"
  "class A const & __cdecl c9(void)" = true.
Proof. vm_compute. reflexivity. Qed.
Example vec_0756 : v_sub 0 "?c10@@YAACVA@@XZ"
  "class A volatile & __cdecl c10(void)" = true.
Proof. vm_compute. reflexivity. Qed.
Example vec_0757 : v_sub 0 "?c11@@YAADVA@@XZ"
  "class A const volatile & __cdecl c11(void)" = true.
Proof. vm_compute. reflexivity. Qed.
Example vec_0758 : v_sub 0 "?d1@@YA?AV?$B@H@@XZ"
  "class B<int> __cdecl d1(void)" = true.
Proof. vm_compute. reflexivity. Qed.
Example vec_0759 : v_sub 0 "?d2@@YA?AV?$B@PBD@@XZ"
  "class B<char const *> __cdecl d2(void)" = true.
Proof. vm_compute. reflexivity. Qed.
Example vec_0760 : v_sub 0 "?d3@@YA?AV?$B@VA@@@@XZ"
  "class B<class A> __cdecl d3(void)" = true.
Proof. vm_compute. reflexivity. Qed.
Example vec_0761 : v_sub 0 "?d4@@YAPAV?$B@VA@@@@XZ"
  "class B<class A> * __cdecl d4(void)" = true.
Proof. vm_compute. reflexivity. Qed.
Example vec_0762 : v_sub 0 "?d5@@YAPBV?$B@VA@@@@XZ"
  "class B<class A> const * __cdecl d5(void)" = true.
Proof. vm_compute. reflexivity. Qed.
Example vec_0763 : v_sub 0 "?d6@@YAPCV?$B@VA@@@@XZ"
  "class B<class A> volatile * __cdecl d6(void)" = true.
Proof. vm_compute. reflexivity. Qed.
Example vec_0764 : v_sub 0 "?d7@@YAPDV?$B@VA@@@@XZ"
  "class B<class A> const volatile * __cdecl d7(void)" = true.
Proof. vm_compute. reflexivity. Qed.
Example vec_0765 : v_sub 0 "?d8@@YAAAV?$B@VA@@@@XZ"
  "class B<class A> & __cdecl d8(void)" = true.
Proof. vm_compute. reflexivity. Qed.
Example vec_0766 : v_sub 0 "?d9@@YAABV?$B@VA@@@@XZ"
  "class B<class A> const & __cdecl d9(void)" = true.
Proof. vm_compute. reflexivity. Qed.
Example vec_0767 : v_sub 0 "?d10@@YAACV?$B@VA@@@@XZ"
  "class B<class A> volatile & __cdecl d10(void)" = true.
Proof. vm_compute. reflexivity. Qed.
Example vec_0768 : v_sub 0 "?d11@@YAADV?$B@VA@@@@XZ"
  "class B<class A> const volatile & __cdecl d11(void)" = true.
Proof. vm_compute. reflexivity. Qed.
Example vec_0769 : v_sub 0 "?e1@@YA?AW4Enum@@XZ"
  "Enum __cdecl e1(void)" = true.
Proof. vm_compute. reflexivity. Qed.
Example vec_0770 : v_sub 0 "?e2@@YA?BW4Enum@@XZ"
  "Enum const __cdecl e2(void)" = true.
Proof. vm_compute. reflexivity. Qed.
Example vec_0771 : v_sub 0 "?e3@@YAPAW4Enum@@XZ"
  "Enum * __cdecl e3(void)" = true.
Proof. vm_compute. reflexivity. Qed.
Example vec_0772 : v_sub 0 "?e4@@YAAAW4Enum@@XZ"
  "Enum & __cdecl e4(void)" = true.
Proof. vm_compute. reflexivity. Qed.
Example vec_0773 : v_sub 0 "?f1@@YA?AUS@@XZ"
  "struct S __cdecl f1(void)" = true.
Proof. vm_compute. reflexivity. Qed.
Example vec_0774 : v_sub 0 "?f2@@YA?BUS@@XZ"
  "struct S const __cdecl f2(void)" = true.
Proof. vm_compute. reflexivity. Qed.
Example vec_0775 : v_sub 0 "?f3@@YAPAUS@@XZ"
  "struct S * __cdecl f3(void)" = true.
Proof. vm_compute. reflexivity. Qed.
Example vec_0776 : v_sub 0 "?f4@@YAPBUS@@XZ"
  "struct S const * __cdecl f4(void)" = true.
Proof. vm_compute. reflexivity. Qed.
Example vec_0777 : v_sub 0 "?f5@@YAPDUS@@XZ"
  "struct S const volatile * __cdecl f5(void)" = true.
Proof. vm_compute. reflexivity. Qed.
Example vec_0778 : v_sub 0 "?f6@@YAAAUS@@XZ"
  "struct S & __cdecl f6(void)" = true.
Proof. vm_compute. reflexivity. Qed.
Example vec_0779 : v_sub 0 "?f7@@YAQAUS@@XZ"
  "struct S *const __cdecl f7(void)" = true.
Proof. vm_compute. reflexivity. Qed.
Example vec_0780 : v_sub 0 "?f8@@YAPQS@@HXZ"
  "int S::* __cdecl f8(void)" = true.
Proof. vm_compute. reflexivity. Qed.
Example vec_0781 : v_sub 0 "?f9@@YAQQS@@HXZ"
  "int S::*const __cdecl f9(void)" = true.
Proof. vm_compute. reflexivity. Qed.
Example vec_0782 : v_sub 0 "?f10@@YAPIQS@@HXZ"
  "int S::*__restrict __cdecl f10(void)" = true.
Proof. vm_compute. reflexivity. Qed.
Example vec_0783 : v_sub 0 "?f11@@YAQIQS@@HXZ"
  "int S::*const __restrict __cdecl f11(void)" = true.
Proof. vm_compute. reflexivity. Qed.
Example vec_0784 : v_sub 0 "?g1@@YAP6AHH@ZXZ"
  "int (__cdecl * __cdecl g1(void))(int)" = true.
Proof. vm_compute. reflexivity. Qed.
Example vec_0785 : v_sub 0 "?g2@@YAQ6AHH@ZXZ"
  "int (__cdecl *const __cdecl g2(void))(int)" = true.
Proof. vm_compute. reflexivity. Qed.
Example vec_0786 : v_sub 0 "?g3@@YAPAP6AHH@ZXZ"
  "int (__cdecl ** __cdecl g3(void))(int)" = true.
Proof. vm_compute. reflexivity. Qed.
Example vec_0787 : v_sub 0 "?g4@@YAPBQ6AHH@ZXZ"
  "int (__cdecl *const * __cdecl g4(void))(int)" = true.
Proof. vm_compute. reflexivity. Qed.
Example vec_0788 : v_sub 0 "?h1@@YAAIAHXZ"
  "int &__restrict __cdecl h1(void)" = true.
Proof. vm_compute. reflexivity. Qed.
Example vec_0789 : v_sub 0 "??_C@_0CF@LABBIIMO@012345678901234567890123456789AB@"
  """012345678901234567890123456789AB""..." = true.
Proof. vm_compute. reflexivity. Qed.
Example vec_0790 : v_sub 0 "??_C@_1EK@KFPEBLPK@?$AA0?$AA1?$AA2?$AA3?$AA4?$AA5?$AA6?$AA7?$AA8?$AA9?$AA0?$AA1?$AA2?$AA3?$AA4?$AA5?$AA6?$AA7?$AA8?$AA9?$AA0?$AA1?$AA2?$AA3?$AA4?$AA5?$AA6?$AA7?$AA8?$AA9?$AAA?$AAB@"
  "L""012345678901234567890123456789AB""..." = true.
Proof. vm_compute. reflexivity. Qed.
Example vec_0791 : v_sub 0 "??_C@_13IIHIAFKH@?W?$PP?$AA?$AA@"
  "L""\xD7FF""" = true.
Proof. vm_compute. reflexivity. Qed.
Example vec_0792 : v_sub 0 "??_C@_03IIHIAFKH@?$PP?W?$AA?$AA@"
  "u""\xD7FF""" = true.
Proof. vm_compute. reflexivity. Qed.
Example vec_0793 : v_sub 0 "??_C@_02PCEFGMJL@hi?$AA@"
  """hi""" = true.
Proof. vm_compute. reflexivity. Qed.
Example vec_0794 : v_sub 0 "??_C@_05OMLEGLOC@h?$AAi?$AA?$AA?$AA@"
  "u""hi""" = true.
Proof. vm_compute. reflexivity. Qed.
Example vec_0795 : v_sub 0 "??_C@_0EK@FEAOBHPP@o?$AA1?$AA2?$AA3?$AA4?$AA5?$AA6?$AA7?$AA8?$AA9?$AA0?$AA1?$AA2?$AA3?$AA4?$AA5?$AA@"
  "u""o123456789012345""..." = true.
Proof. vm_compute. reflexivity. Qed.
Example vec_0796 : v_sub 0 "??_C@_0M@GFNAJIPG@h?$AA?$AA?$AAi?$AA?$AA?$AA?$AA?$AA?$AA?$AA@"
  "U""hi""" = true.
Proof. vm_compute. reflexivity. Qed.
Example vec_0797 : v_sub 0 "??_C@_0JE@IMHFEDAA@0?$AA?$AA?$AA1?$AA?$AA?$AA2?$AA?$AA?$AA3?$AA?$AA?$AA4?$AA?$AA?$AA5?$AA?$AA?$AA6?$AA?$AA?$AA7?$AA?$AA?$AA@"
  "U""01234567""..." = true.
Proof. vm_compute. reflexivity. Qed.
Example vec_0798 : v_sub 0 "??_C@_0CA@NMANGEKF@012345678901234567890123456789A?$AA@"
  """012345678901234567890123456789A""" = true.
Proof. vm_compute. reflexivity. Qed.
Example vec_0799 : v_sub 0 "??_C@_1EA@LJAFPILO@?$AA0?$AA1?$AA2?$AA3?$AA4?$AA5?$AA6?$AA7?$AA8?$AA9?$AA0?$AA1?$AA2?$AA3?$AA4?$AA5?$AA6?$AA7?$AA8?$AA9?$AA0?$AA1?$AA2?$AA3?$AA4?$AA5?$AA6?$AA7?$AA8?$AA9?$AAA?$AA?$AA@"
  "L""012345678901234567890123456789A""" = true.
Proof. vm_compute. reflexivity. Qed.
Example vec_0800 : v_sub 0 "??_C@_0CA@NMANGEKF@012345678901234567890123456789A?$AA@"
  """012345678901234567890123456789A""" = true.
Proof. vm_compute. reflexivity. Qed.
Example vec_0801 : v_sub 0 "??_C@_0CA@NFEFHIFO@0?$AA1?$AA2?$AA3?$AA4?$AA5?$AA6?$AA7?$AA8?$AA9?$AA0?$AA1?$AA2?$AA3?$AA4?$AA?$AA?$AA@"
  "u""012345678901234""" = true.
Proof. vm_compute. reflexivity. Qed.
Example vec_0802 : v_sub 0 "??_C@_0CA@KFPHPCC@0?$AA?$AA?$AA1?$AA?$AA?$AA2?$AA?$AA?$AA3?$AA?$AA?$AA4?$AA?$AA?$AA5?$AA?$AA?$AA6?$AA?$AA?$AA?$AA?$AA?$AA?$AA@"
  "U""0123456""" = true.
Proof. vm_compute. reflexivity. Qed.
Example vec_0803 : v_sub 0 "??_C@_0CG@HJGBPLNO@l?$AAo?$AAo?$AAk?$AAA?$AAh?$AAe?$AAa?$AAd?$AAH?$AAa?$AAr?$AAd?$AAB?$AAr?$AAe?$AAa?$AAk?$AA?$AA?$AA@"
  "u""lookAheadHardBreak""" = true.
Proof. vm_compute. reflexivity. Qed.
Example vec_0804 : v_sub 0 "??_C@_0CG@HJGBPLNO@l?$AAo?$AAo?$AAk?$AAA?$AAh?$AAe?$AAa?$AAd?$AAH?$AAa?$AAr?$AAd?$AAB?$AAr?$AAe?$AA@"
  "u""lookAheadHardBre""..." = true.
Proof. vm_compute. reflexivity. Qed.
Example vec_0805 : v_sub 0 "??_C@_05LABPAAN@b?$AA?$AA?$AA?$AA?$AA@"
  "u""b\0""" = true.
Proof. vm_compute. reflexivity. Qed.
Example vec_0806 : v_sub 0 "??_C@_0CC@MBPKDIAM@a?$AA?$AA?$AAb?$AA?$AA?$AAc?$AA?$AA?$AAd?$AA?$AA?$AAe?$AA?$AA?$AAf?$AA?$AA?$AAg?$AA?$AA?$AAh?$AA?$AA?$AA@"
  "u""a\0b\0c\0d\0e\0f\0g\0h\0""..." = true.
Proof. vm_compute. reflexivity. Qed.
Example vec_0807 : v_sub 0 "??_C@_07LJGFEJEB@D3?$CC?$BB?$AA?$AA?$AA?$AA@)"
  "U""\x11223344""" = true.
Proof. vm_compute. reflexivity. Qed.
Example vec_0808 : v_sub 0 "??_C@_0GAAAAAAAA@GPLEPFHO@01234567890123456789012345678901@"
  """01234567890123456789012345678901""..." = true.
Proof. vm_compute. reflexivity. Qed.
Example vec_0809 : v_sub 0 "?callback_void@@3V?$C@$$A6AXXZ@@A"
  "class C<void __cdecl(void)> callback_void" = true.
Proof. vm_compute. reflexivity. Qed.
Example vec_0810 : v_sub 0 "?callback_void_volatile@@3V?$C@$$A6AXXZ@@C"
  "class C<void __cdecl(void)> volatile callback_void_volatile" = true.
Proof. vm_compute. reflexivity. Qed.
Example vec_0811 : v_sub 0 "?callback_int@@3V?$C@$$A6AHXZ@@A"
  "C<int __cdecl(void)> callback_int" = true.
Proof. vm_compute. reflexivity. Qed.
Example vec_0812 : v_sub 0 "?callback_Type@@3V?$C@$$A6A?AVType@@XZ@@A"
  "C<class Type __cdecl(void)> callback_Type" = true.
Proof. vm_compute. reflexivity. Qed.
Example vec_0813 : v_sub 0 "?callback_void_int@@3V?$C@$$A6AXH@Z@@A"
  "C<void __cdecl(int)> callback_void_int" = true.
Proof. vm_compute. reflexivity. Qed.
Example vec_0814 : v_sub 0 "?callback_int_int@@3V?$C@$$A6AHH@Z@@A"
  "C<int __cdecl(int)> callback_int_int" = true.
Proof. vm_compute. reflexivity. Qed.
Example vec_0815 : v_sub 0 "?callback_void_Type@@3V?$C@$$A6AXVType@@@Z@@A"
  "C<void __cdecl(class Type)> callback_void_Type" = true.
Proof. vm_compute. reflexivity. Qed.
Example vec_0816 : v_sub 0 "?foo@@YAXV?$C@$$A6AXXZ@@@Z"
  "void __cdecl foo(class C<void __cdecl(void)>)" = true.
Proof. vm_compute. reflexivity. Qed.
Example vec_0817 : v_sub 0 "?function@@YAXV?$C@$$A6AXXZ@@@Z"
  "void __cdecl function(class C<void __cdecl(void)>)" = true.
Proof. vm_compute. reflexivity. Qed.
Example vec_0818 : v_sub 0 "?function_pointer@@YAXV?$C@P6AXXZ@@@Z"
  "void __cdecl function_pointer(class C<void (__cdecl *)(void)>)" = true.
Proof. vm_compute. reflexivity. Qed.
Example vec_0819 : v_sub 0 "?member_pointer@@YAXV?$C@P8Z@@AEXXZ@@@Z"
  "void __cdecl member_pointer(class C<void (__thiscall Z::*)(void)>)" = true.
Proof. vm_compute. reflexivity. Qed.
Example vec_0820 : v_sub 0 "??$bar@P6AHH@Z@@YAXP6AHH@Z@Z"
  "void __cdecl bar<int (__cdecl *)(int)>(int (__cdecl *)(int))" = true.
Proof. vm_compute. reflexivity. Qed.
Example vec_0821 : v_sub 0 "??$WrapFnPtr@$1?VoidFn@@YAXXZ@@YAXXZ"
  "void __cdecl WrapFnPtr<&void __cdecl VoidFn(void)>(void)" = true.
Proof. vm_compute. reflexivity. Qed.
Example vec_0822 : v_sub 0 "??$WrapFnRef@$1?VoidFn@@YAXXZ@@YAXXZ"
  "void __cdecl WrapFnRef<&void __cdecl VoidFn(void)>(void)" = true.
Proof. vm_compute. reflexivity. Qed.
Example vec_0823 : v_sub 0 "??$WrapFnPtr@$1?VoidStaticMethod@Thing@@SAXXZ@@YAXXZ"
  "void __cdecl WrapFnPtr<&public: static void __cdecl Thing::VoidStaticMethod(void)>(void)" = true.
Proof. vm_compute. reflexivity. Qed.
Example vec_0824 : v_sub 0 "??$WrapFnRef@$1?VoidStaticMethod@Thing@@SAXXZ@@YAXXZ"
  "void __cdecl WrapFnRef<&public: static void __cdecl Thing::VoidStaticMethod(void)>(void)" = true.
Proof. vm_compute. reflexivity. Qed.
Example vec_0825 : v_sub 0 "?m@@3U?$J@UM@@$0A@@@A"
  "struct J<struct M, 0> m" = true.
Proof. vm_compute. reflexivity. Qed.
Example vec_0826 : v_sub 0 "?m2@@3U?$K@UM@@$0?0@@A"
  "struct K<struct M, -1> m2" = true.
Proof. vm_compute. reflexivity. Qed.
Example vec_0827 : v_sub 0 "?n@@3U?$J@UN@@$HA@@@A"
  "struct J<struct N, {0}> n" = true.
Proof. vm_compute. reflexivity. Qed.
Example vec_0828 : v_sub 0 "?n2@@3U?$K@UN@@$0?0@@A"
  "struct K<struct N, -1> n2" = true.
Proof. vm_compute. reflexivity. Qed.
Example vec_0829 : v_sub 0 "?o@@3U?$J@UO@@$IA@A@@@A"
  "struct J<struct O, {0, 0}> o" = true.
Proof. vm_compute. reflexivity. Qed.
Example vec_0830 : v_sub 0 "?o2@@3U?$K@UO@@$FA@?0@@A"
  "struct K<struct O, {0, -1}> o2" = true.
Proof. vm_compute. reflexivity. Qed.
Example vec_0831 : v_sub 0 "?p@@3U?$J@UP@@$JA@A@?0@@A"
  "struct J<struct P, {0, 0, -1}> p" = true.
Proof. vm_compute. reflexivity. Qed.
Example vec_0832 : v_sub 0 "?p2@@3U?$K@UP@@$GA@A@?0@@A"
  "struct K<struct P, {0, 0, -1}> p2" = true.
Proof. vm_compute. reflexivity. Qed.
Example vec_0833 : v_sub 0 "??0?$ClassTemplate@$J??_9MostGeneral@@$BA@AEA@M@3@@QAE@XZ"
  "__thiscall ClassTemplate<{[thunk]: __thiscall MostGeneral::`vcall'{0, {flat}}, 0, 12, 4}>::ClassTemplate<{[thunk]: __thiscall MostGeneral::`vcall'{0, {flat}}, 0, 12, 4}>(void)" = true.
Proof. vm_compute. reflexivity. Qed.
Example vec_0834 : v_sub 0 "??$CallMethod@UC@NegativeNVOffset@@$I??_912@$BA@AEPPPPPPPM@A@@@YAXAAUC@NegativeNVOffset@@@Z"
  "void __cdecl CallMethod<struct NegativeNVOffset::C, {[thunk]: __thiscall NegativeNVOffset::C::`vcall'{0, {flat}}, 4294967292, 0}>(struct NegativeNVOffset::C &)" = true.
Proof. vm_compute. reflexivity. Qed.
Example vec_0835 : v_sub 0 "??$CallMethod@UM@@$0A@@@YAXAAUM@@@Z"
  "void __cdecl CallMethod<struct M, 0>(struct M &)" = true.
Proof. vm_compute. reflexivity. Qed.
Example vec_0836 : v_sub 0 "??$CallMethod@UM@@$H??_91@$BA@AEA@@@YAXAAUM@@@Z"
  "void __cdecl CallMethod<struct M, {[thunk]: __thiscall M::`vcall'{0, {flat}}, 0}>(struct M &)" = true.
Proof. vm_compute. reflexivity. Qed.
Example vec_0837 : v_sub 0 "??$CallMethod@UM@@$H?f@1@QAEXXZA@@@YAXAAUM@@@Z"
  "void __cdecl CallMethod<struct M, {public: void __thiscall M::f(void), 0}>(struct M &)" = true.
Proof. vm_compute. reflexivity. Qed.
Example vec_0838 : v_sub 0 "??$CallMethod@UO@@$H??_91@$BA@AE3@@YAXAAUO@@@Z"
  "void __cdecl CallMethod<struct O, {[thunk]: __thiscall O::`vcall'{0, {flat}}, 4}>(struct O &)" = true.
Proof. vm_compute. reflexivity. Qed.
Example vec_0839 : v_sub 0 "??$CallMethod@US@@$0A@@@YAXAAUS@@@Z"
  "void __cdecl CallMethod<struct S, 0>(struct S &)" = true.
Proof. vm_compute. reflexivity. Qed.
Example vec_0840 : v_sub 0 "??$CallMethod@US@@$1??_91@$BA@AE@@YAXAAUS@@@Z"
  "void __cdecl CallMethod<struct S, &[thunk]: __thiscall S::`vcall'{0, {flat}}>(struct S &)" = true.
Proof. vm_compute. reflexivity. Qed.
Example vec_0841 : v_sub 0 "??$CallMethod@US@@$1?f@1@QAEXXZ@@YAXAAUS@@@Z"
  "void __cdecl CallMethod<struct S, &public: void __thiscall S::f(void)>(struct S &)" = true.
Proof. vm_compute. reflexivity. Qed.
Example vec_0842 : v_sub 0 "??$CallMethod@UU@@$0A@@@YAXAAUU@@@Z"
  "void __cdecl CallMethod<struct U, 0>(struct U &)" = true.
Proof. vm_compute. reflexivity. Qed.
Example vec_0843 : v_sub 0 "??$CallMethod@UU@@$J??_91@$BA@AEA@A@A@@@YAXAAUU@@@Z"
  "void __cdecl CallMethod<struct U, {[thunk]: __thiscall U::`vcall'{0, {flat}}, 0, 0, 0}>(struct U &)" = true.
Proof. vm_compute. reflexivity. Qed.
Example vec_0844 : v_sub 0 "??$CallMethod@UU@@$J?f@1@QAEXXZA@A@A@@@YAXAAUU@@@Z"
  "void __cdecl CallMethod<struct U, {public: void __thiscall U::f(void), 0, 0, 0}>(struct U &)" = true.
Proof. vm_compute. reflexivity. Qed.
Example vec_0845 : v_sub 0 "??$CallMethod@UV@@$0A@@@YAXAAUV@@@Z"
  "void __cdecl CallMethod<struct V, 0>(struct V &)" = true.
Proof. vm_compute. reflexivity. Qed.
Example vec_0846 : v_sub 0 "??$CallMethod@UV@@$I??_91@$BA@AEA@A@@@YAXAAUV@@@Z"
  "void __cdecl CallMethod<struct V, {[thunk]: __thiscall V::`vcall'{0, {flat}}, 0, 0}>(struct V &)" = true.
Proof. vm_compute. reflexivity. Qed.
Example vec_0847 : v_sub 0 "??$CallMethod@UV@@$I?f@1@QAEXXZA@A@@@YAXAAUV@@@Z"
  "void __cdecl CallMethod<struct V, {public: void __thiscall V::f(void), 0, 0}>(struct V &)" = true.
Proof. vm_compute. reflexivity. Qed.
Example vec_0848 : v_sub 0 "??$ReadField@UA@@$0?0@@YAHAAUA@@@Z"
  "int __cdecl ReadField<struct A, -1>(struct A &)" = true.
Proof. vm_compute. reflexivity. Qed.
Example vec_0849 : v_sub 0 "??$ReadField@UA@@$0A@@@YAHAAUA@@@Z"
  "int __cdecl ReadField<struct A, 0>(struct A &)" = true.
Proof. vm_compute. reflexivity. Qed.
Example vec_0850 : v_sub 0 "??$ReadField@UI@@$03@@YAHAAUI@@@Z"
  "int __cdecl ReadField<struct I, 4>(struct I &)" = true.
Proof. vm_compute. reflexivity. Qed.
Example vec_0851 : v_sub 0 "??$ReadField@UI@@$0A@@@YAHAAUI@@@Z"
  "int __cdecl ReadField<struct I, 0>(struct I &)" = true.
Proof. vm_compute. reflexivity. Qed.
Example vec_0852 : v_sub 0 "??$ReadField@UM@@$0A@@@YAHAAUM@@@Z"
  "int __cdecl ReadField<struct M, 0>(struct M &)" = true.
Proof. vm_compute. reflexivity. Qed.
Example vec_0853 : v_sub 0 "??$ReadField@UM@@$0BA@@@YAHAAUM@@@Z"
  "int __cdecl ReadField<struct M, 16>(struct M &)" = true.
Proof. vm_compute. reflexivity. Qed.
Example vec_0854 : v_sub 0 "??$ReadField@UM@@$0M@@@YAHAAUM@@@Z"
  "int __cdecl ReadField<struct M, 12>(struct M &)" = true.
Proof. vm_compute. reflexivity. Qed.
Example vec_0855 : v_sub 0 "??$ReadField@US@@$03@@YAHAAUS@@@Z"
  "int __cdecl ReadField<struct S, 4>(struct S &)" = true.
Proof. vm_compute. reflexivity. Qed.
Example vec_0856 : v_sub 0 "??$ReadField@US@@$07@@YAHAAUS@@@Z"
  "int __cdecl ReadField<struct S, 8>(struct S &)" = true.
Proof. vm_compute. reflexivity. Qed.
Example vec_0857 : v_sub 0 "??$ReadField@US@@$0A@@@YAHAAUS@@@Z"
  "int __cdecl ReadField<struct S, 0>(struct S &)" = true.
Proof. vm_compute. reflexivity. Qed.
Example vec_0858 : v_sub 0 "??$ReadField@UU@@$0A@@@YAHAAUU@@@Z"
  "int __cdecl ReadField<struct U, 0>(struct U &)" = true.
Proof. vm_compute. reflexivity. Qed.
Example vec_0859 : v_sub 0 "??$ReadField@UU@@$G3A@A@@@YAHAAUU@@@Z"
  "int __cdecl ReadField<struct U, {4, 0, 0}>(struct U &)" = true.
Proof. vm_compute. reflexivity. Qed.
Example vec_0860 : v_sub 0 "??$ReadField@UU@@$G7A@A@@@YAHAAUU@@@Z"
  "int __cdecl ReadField<struct U, {8, 0, 0}>(struct U &)" = true.
Proof. vm_compute. reflexivity. Qed.
Example vec_0861 : v_sub 0 "??$ReadField@UV@@$0A@@@YAHAAUV@@@Z"
  "int __cdecl ReadField<struct V, 0>(struct V &)" = true.
Proof. vm_compute. reflexivity. Qed.
Example vec_0862 : v_sub 0 "??$ReadField@UV@@$F7A@@@YAHAAUV@@@Z"
  "int __cdecl ReadField<struct V, {8, 0}>(struct V &)" = true.
Proof. vm_compute. reflexivity. Qed.
Example vec_0863 : v_sub 0 "??$ReadField@UV@@$FM@A@@@YAHAAUV@@@Z"
  "int __cdecl ReadField<struct V, {12, 0}>(struct V &)" = true.
Proof. vm_compute. reflexivity. Qed.
Example vec_0864 : v_sub 0 "?Q@@3$$QEAP8Foo@@EAAXXZEA"
  "void (__cdecl Foo::*&&Q)(void)" = true.
Proof. vm_compute. reflexivity. Qed.
Example vec_0865 : v_sub 0 "?f@@3V?$C@H@@A"
  "class C<int> f" = true.
Proof. vm_compute. reflexivity. Qed.
Example vec_0866 : v_sub 0 "??0?$Class@VTypename@@@@QAE@XZ"
  "__thiscall Class<class Typename>::Class<class Typename>(void)" = true.
Proof. vm_compute. reflexivity. Qed.
Example vec_0867 : v_sub 0 "??0?$Class@VTypename@@@@QEAA@XZ"
  "__cdecl Class<class Typename>::Class<class Typename>(void)" = true.
Proof. vm_compute. reflexivity. Qed.
Example vec_0868 : v_sub 0 "??0?$Class@$$CBVTypename@@@@QAE@XZ"
  "__thiscall Class<class Typename const>::Class<class Typename const>(void)" = true.
Proof. vm_compute. reflexivity. Qed.
Example vec_0869 : v_sub 0 "??0?$Class@$$CBVTypename@@@@QEAA@XZ"
  "__cdecl Class<class Typename const>::Class<class Typename const>(void)" = true.
Proof. vm_compute. reflexivity. Qed.
Example vec_0870 : v_sub 0 "??0?$Class@$$CCVTypename@@@@QAE@XZ"
  "__thiscall Class<class Typename volatile>::Class<class Typename volatile>(void)" = true.
Proof. vm_compute. reflexivity. Qed.
Example vec_0871 : v_sub 0 "??0?$Class@$$CCVTypename@@@@QEAA@XZ"
  "__cdecl Class<class Typename volatile>::Class<class Typename volatile>(void)" = true.
Proof. vm_compute. reflexivity. Qed.
Example vec_0872 : v_sub 0 "??0?$Class@$$CDVTypename@@@@QAE@XZ"
  "__thiscall Class<class Typename const volatile>::Class<class Typename const volatile>(void)" = true.
Proof. vm_compute. reflexivity. Qed.
Example vec_0873 : v_sub 0 "??0?$Class@$$CDVTypename@@@@QEAA@XZ"
  "__cdecl Class<class Typename const volatile>::Class<class Typename const volatile>(void)" = true.
Proof. vm_compute. reflexivity. Qed.
Example vec_0874 : v_sub 0 "??0?$Class@V?$Nested@VTypename@@@@@@QAE@XZ"
  "__thiscall Class<class Nested<class Typename>>::Class<class Nested<class Typename>>(void)" = true.
Proof. vm_compute. reflexivity. Qed.
Example vec_0875 : v_sub 0 "??0?$Class@V?$Nested@VTypename@@@@@@QEAA@XZ"
  "__cdecl Class<class Nested<class Typename>>::Class<class Nested<class Typename>>(void)" = true.
Proof. vm_compute. reflexivity. Qed.
Example vec_0876 : v_sub 0 "??0?$Class@QAH@@QAE@XZ"
  "__thiscall Class<int *const>::Class<int *const>(void)" = true.
Proof. vm_compute. reflexivity. Qed.
Example vec_0877 : v_sub 0 "??0?$Class@QEAH@@QEAA@XZ"
  "__cdecl Class<int *const>::Class<int *const>(void)" = true.
Proof. vm_compute. reflexivity. Qed.
Example vec_0878 : v_sub 0 "??0?$Class@$$A6AHXZ@@QAE@XZ"
  "__thiscall Class<int __cdecl(void)>::Class<int __cdecl(void)>(void)" = true.
Proof. vm_compute. reflexivity. Qed.
Example vec_0879 : v_sub 0 "??0?$Class@$$A6AHXZ@@QEAA@XZ"
  "__cdecl Class<int __cdecl(void)>::Class<int __cdecl(void)>(void)" = true.
Proof. vm_compute. reflexivity. Qed.
Example vec_0880 : v_sub 0 "??0?$Class@$$BY0A@H@@QAE@XZ"
  "__thiscall Class<int[]>::Class<int[]>(void)" = true.
Proof. vm_compute. reflexivity. Qed.
Example vec_0881 : v_sub 0 "??0?$Class@$$BY0A@H@@QEAA@XZ"
  "__cdecl Class<int[]>::Class<int[]>(void)" = true.
Proof. vm_compute. reflexivity. Qed.
Example vec_0882 : v_sub 0 "??0?$Class@$$BY04H@@QAE@XZ"
  "__thiscall Class<int[5]>::Class<int[5]>(void)" = true.
Proof. vm_compute. reflexivity. Qed.
Example vec_0883 : v_sub 0 "??0?$Class@$$BY04H@@QEAA@XZ"
  "__cdecl Class<int[5]>::Class<int[5]>(void)" = true.
Proof. vm_compute. reflexivity. Qed.
Example vec_0884 : v_sub 0 "??0?$Class@$$BY04$$CBH@@QAE@XZ"
  "__thiscall Class<int const[5]>::Class<int const[5]>(void)" = true.
Proof. vm_compute. reflexivity. Qed.
Example vec_0885 : v_sub 0 "??0?$Class@$$BY04$$CBH@@QEAA@XZ"
  "__cdecl Class<int const[5]>::Class<int const[5]>(void)" = true.
Proof. vm_compute. reflexivity. Qed.
Example vec_0886 : v_sub 0 "??0?$Class@$$BY04QAH@@QAE@XZ"
  "__thiscall Class<int *const[5]>::Class<int *const[5]>(void)" = true.
Proof. vm_compute. reflexivity. Qed.
Example vec_0887 : v_sub 0 "??0?$Class@$$BY04QEAH@@QEAA@XZ"
  "__cdecl Class<int *const[5]>::Class<int *const[5]>(void)" = true.
Proof. vm_compute. reflexivity. Qed.
Example vec_0888 : v_sub 0 "??0?$BoolTemplate@$0A@@@QAE@XZ"
  "__thiscall BoolTemplate<0>::BoolTemplate<0>(void)" = true.
Proof. vm_compute. reflexivity. Qed.
Example vec_0889 : v_sub 0 "??0?$BoolTemplate@$0A@@@QEAA@XZ"
  "__cdecl BoolTemplate<0>::BoolTemplate<0>(void)" = true.
Proof. vm_compute. reflexivity. Qed.
Example vec_0890 : v_sub 0 "??0?$BoolTemplate@$00@@QAE@XZ"
  "__thiscall BoolTemplate<1>::BoolTemplate<1>(void)" = true.
Proof. vm_compute. reflexivity. Qed.
Example vec_0891 : v_sub 0 "??0?$BoolTemplate@$00@@QEAA@XZ"
  "__cdecl BoolTemplate<1>::BoolTemplate<1>(void)" = true.
Proof. vm_compute. reflexivity. Qed.
Example vec_0892 : v_sub 0 "??$Foo@H@?$BoolTemplate@$00@@QAEXH@Z"
  "void __thiscall BoolTemplate<1>::Foo<int>(int)" = true.
Proof. vm_compute. reflexivity. Qed.
Example vec_0893 : v_sub 0 "??$Foo@H@?$BoolTemplate@$00@@QEAAXH@Z"
  "void __cdecl BoolTemplate<1>::Foo<int>(int)" = true.
Proof. vm_compute. reflexivity. Qed.
Example vec_0894 : v_sub 0 "??0?$IntTemplate@$0A@@@QAE@XZ"
  "__thiscall IntTemplate<0>::IntTemplate<0>(void)" = true.
Proof. vm_compute. reflexivity. Qed.
Example vec_0895 : v_sub 0 "??0?$IntTemplate@$0A@@@QEAA@XZ"
  "__cdecl IntTemplate<0>::IntTemplate<0>(void)" = true.
Proof. vm_compute. reflexivity. Qed.
Example vec_0896 : v_sub 0 "??0?$IntTemplate@$04@@QAE@XZ"
  "__thiscall IntTemplate<5>::IntTemplate<5>(void)" = true.
Proof. vm_compute. reflexivity. Qed.
Example vec_0897 : v_sub 0 "??0?$IntTemplate@$04@@QEAA@XZ"
  "__cdecl IntTemplate<5>::IntTemplate<5>(void)" = true.
Proof. vm_compute. reflexivity. Qed.
Example vec_0898 : v_sub 0 "??0?$IntTemplate@$0L@@@QAE@XZ"
  "__thiscall IntTemplate<11>::IntTemplate<11>(void)" = true.
Proof. vm_compute. reflexivity. Qed.
Example vec_0899 : v_sub 0 "??0?$IntTemplate@$0L@@@QEAA@XZ"
  "__cdecl IntTemplate<11>::IntTemplate<11>(void)" = true.
Proof. vm_compute. reflexivity. Qed.
Example vec_0900 : v_sub 0 "??0?$IntTemplate@$0BAA@@@QAE@XZ"
  "__thiscall IntTemplate<256>::IntTemplate<256>(void)" = true.
Proof. vm_compute. reflexivity. Qed.
Example vec_0901 : v_sub 0 "??0?$IntTemplate@$0BAA@@@QEAA@XZ"
  "__cdecl IntTemplate<256>::IntTemplate<256>(void)" = true.
Proof. vm_compute. reflexivity. Qed.
Example vec_0902 : v_sub 0 "??0?$IntTemplate@$0CAB@@@QAE@XZ"
  "__thiscall IntTemplate<513>::IntTemplate<513>(void)" = true.
Proof. vm_compute. reflexivity. Qed.
Example vec_0903 : v_sub 0 "??0?$IntTemplate@$0CAB@@@QEAA@XZ"
  "__cdecl IntTemplate<513>::IntTemplate<513>(void)" = true.
Proof. vm_compute. reflexivity. Qed.
Example vec_0904 : v_sub 0 "??0?$IntTemplate@$0EAC@@@QAE@XZ"
  "__thiscall IntTemplate<1026>::IntTemplate<1026>(void)" = true.
Proof. vm_compute. reflexivity. Qed.
Example vec_0905 : v_sub 0 "??0?$IntTemplate@$0EAC@@@QEAA@XZ"
  "__cdecl IntTemplate<1026>::IntTemplate<1026>(void)" = true.
Proof. vm_compute. reflexivity. Qed.
Example vec_0906 : v_sub 0 "??0?$IntTemplate@$0PPPP@@@QAE@XZ"
  "__thiscall IntTemplate<65535>::IntTemplate<65535>(void)" = true.
Proof. vm_compute. reflexivity. Qed.
Example vec_0907 : v_sub 0 "??0?$IntTemplate@$0PPPP@@@QEAA@XZ"
  "__cdecl IntTemplate<65535>::IntTemplate<65535>(void)" = true.
Proof. vm_compute. reflexivity. Qed.
Example vec_0908 : v_sub 0 "??0?$IntTemplate@$0?0@@QAE@XZ"
  "__thiscall IntTemplate<-1>::IntTemplate<-1>(void)" = true.
Proof. vm_compute. reflexivity. Qed.
Example vec_0909 : v_sub 0 "??0?$IntTemplate@$0?0@@QEAA@XZ"
  "__cdecl IntTemplate<-1>::IntTemplate<-1>(void)" = true.
Proof. vm_compute. reflexivity. Qed.
Example vec_0910 : v_sub 0 "??0?$IntTemplate@$0?8@@QAE@XZ"
  "__thiscall IntTemplate<-9>::IntTemplate<-9>(void)" = true.
Proof. vm_compute. reflexivity. Qed.
Example vec_0911 : v_sub 0 "??0?$IntTemplate@$0?8@@QEAA@XZ"
  "__cdecl IntTemplate<-9>::IntTemplate<-9>(void)" = true.
Proof. vm_compute. reflexivity. Qed.
Example vec_0912 : v_sub 0 "??0?$IntTemplate@$0?9@@QAE@XZ"
  "__thiscall IntTemplate<-10>::IntTemplate<-10>(void)" = true.
Proof. vm_compute. reflexivity. Qed.
Example vec_0913 : v_sub 0 "??0?$IntTemplate@$0?9@@QEAA@XZ"
  "__cdecl IntTemplate<-10>::IntTemplate<-10>(void)" = true.
Proof. vm_compute. reflexivity. Qed.
Example vec_0914 : v_sub 0 "??0?$IntTemplate@$0?L@@@QAE@XZ"
  "__thiscall IntTemplate<-11>::IntTemplate<-11>(void)" = true.
Proof. vm_compute. reflexivity. Qed.
Example vec_0915 : v_sub 0 "??0?$IntTemplate@$0?L@@@QEAA@XZ"
  "__cdecl IntTemplate<-11>::IntTemplate<-11>(void)" = true.
Proof. vm_compute. reflexivity. Qed.
Example vec_0916 : v_sub 0 "??0?$UnsignedIntTemplate@$0PPPPPPPP@@@QAE@XZ"
  "__thiscall UnsignedIntTemplate<4294967295>::UnsignedIntTemplate<4294967295>(void)" = true.
Proof. vm_compute. reflexivity. Qed.
Example vec_0917 : v_sub 0 "??0?$UnsignedIntTemplate@$0PPPPPPPP@@@QEAA@XZ"
  "__cdecl UnsignedIntTemplate<4294967295>::UnsignedIntTemplate<4294967295>(void)" = true.
Proof. vm_compute. reflexivity. Qed.
Example vec_0918 : v_sub 0 "??0?$LongLongTemplate@$0?IAAAAAAAAAAAAAAA@@@QAE@XZ"
  "__thiscall LongLongTemplate<-9223372036854775808>::LongLongTemplate<-9223372036854775808>(void)" = true.
Proof. vm_compute. reflexivity. Qed.
Example vec_0919 : v_sub 0 "??0?$LongLongTemplate@$0?IAAAAAAAAAAAAAAA@@@QEAA@XZ"
  "__cdecl LongLongTemplate<-9223372036854775808>::LongLongTemplate<-9223372036854775808>(void)" = true.
Proof. vm_compute. reflexivity. Qed.
Example vec_0920 : v_sub 0 "??0?$LongLongTemplate@$0HPPPPPPPPPPPPPPP@@@QAE@XZ"
  "__thiscall LongLongTemplate<9223372036854775807>::LongLongTemplate<9223372036854775807>(void)" = true.
Proof. vm_compute. reflexivity. Qed.
Example vec_0921 : v_sub 0 "??0?$LongLongTemplate@$0HPPPPPPPPPPPPPPP@@@QEAA@XZ"
  "__cdecl LongLongTemplate<9223372036854775807>::LongLongTemplate<9223372036854775807>(void)" = true.
Proof. vm_compute. reflexivity. Qed.
Example vec_0922 : v_sub 0 "??0?$UnsignedLongLongTemplate@$0?0@@QAE@XZ"
  "__thiscall UnsignedLongLongTemplate<-1>::UnsignedLongLongTemplate<-1>(void)" = true.
Proof. vm_compute. reflexivity. Qed.
Example vec_0923 : v_sub 0 "??0?$UnsignedLongLongTemplate@$0?0@@QEAA@XZ"
  "__cdecl UnsignedLongLongTemplate<-1>::UnsignedLongLongTemplate<-1>(void)" = true.
Proof. vm_compute. reflexivity. Qed.
Example vec_0924 : v_sub 0 "??$foo@H@space@@YAABHABH@Z"
  "int const & __cdecl space::foo<int>(int const &)" = true.
Proof. vm_compute. reflexivity. Qed.
Example vec_0925 : v_sub 0 "??$foo@H@space@@YAAEBHAEBH@Z"
  "int const & __cdecl space::foo<int>(int const &)" = true.
Proof. vm_compute. reflexivity. Qed.
Example vec_0926 : v_sub 0 "??$FunctionPointerTemplate@$1?spam@@YAXXZ@@YAXXZ"
  "void __cdecl FunctionPointerTemplate<&void __cdecl spam(void)>(void)" = true.
Proof. vm_compute. reflexivity. Qed.
Example vec_0927 : v_sub 0 "??$variadic_fn_template@HHHH@@YAXABH000@Z"
  "void __cdecl variadic_fn_template<int, int, int, int>(int const &, int const &, int const &, int const &)" = true.
Proof. vm_compute. reflexivity. Qed.
Example vec_0928 : v_sub 0 "??$variadic_fn_template@HHD$$BY01D@@YAXABH0ABDAAY01$$CBD@Z"
  "void __cdecl variadic_fn_template<int, int, char, char[2]>(int const &, int const &, char const &, char const (&)[2]" = true.
Proof. vm_compute. reflexivity. Qed.
Example vec_0929 : v_sub 0 "??0?$VariadicClass@HD_N@@QAE@XZ"
  "__thiscall VariadicClass<int, char, bool>::VariadicClass<int, char, bool>(void)" = true.
Proof. vm_compute. reflexivity. Qed.
Example vec_0930 : v_sub 0 "??0?$VariadicClass@_NDH@@QAE@XZ"
  "__thiscall VariadicClass<bool, char, int>::VariadicClass<bool, char, int>(void)" = true.
Proof. vm_compute. reflexivity. Qed.
Example vec_0931 : v_sub 0 "?template_template_fun@@YAXU?$Type@U?$Thing@USecond@@$00@@USecond@@@@@Z"
  "void __cdecl template_template_fun(struct Type<struct Thing<struct Second, 1>, struct Second>)" = true.
Proof. vm_compute. reflexivity. Qed.
Example vec_0932 : v_sub 0 "??$template_template_specialization@$$A6AXU?$Type@U?$Thing@USecond@@$00@@USecond@@@@@Z@@YAXXZ"
  "void __cdecl template_template_specialization<void __cdecl(struct Type<struct Thing<struct Second, 1>, struct Second>)>(void)" = true.
Proof. vm_compute. reflexivity. Qed.
Example vec_0933 : v_sub 0 "?f@@YAXU?$S1@$0A@@@@Z"
  "void __cdecl f(struct S1<0>)" = true.
Proof. vm_compute. reflexivity. Qed.
Example vec_0934 : v_sub 0 "?recref@@YAXU?$type1@$E?inst@@3Urecord@@B@@@Z"
  "void __cdecl recref(struct type1<struct record const inst>)" = true.
Proof. vm_compute. reflexivity. Qed.
Example vec_0935 : v_sub 0 "?fun@@YAXU?$UUIDType1@Uuuid@@$1?_GUID_12345678_1234_1234_1234_1234567890ab@@3U__s_GUID@@B@@@Z"
  "void __cdecl fun(struct UUIDType1<struct uuid, &struct __s_GUID const _GUID_12345678_1234_1234_1234_1234567890ab>)" = true.
Proof. vm_compute. reflexivity. Qed.
Example vec_0936 : v_sub 0 "?fun@@YAXU?$UUIDType2@Uuuid@@$E?_GUID_12345678_1234_1234_1234_1234567890ab@@3U__s_GUID@@B@@@Z"
  "void __cdecl fun(struct UUIDType2<struct uuid, struct __s_GUID const _GUID_12345678_1234_1234_1234_1234567890ab>)" = true.
Proof. vm_compute. reflexivity. Qed.
Example vec_0937 : v_sub 0 "?FunctionDefinedWithInjectedName@@YAXU?$TypeWithFriendDefinition@H@@@Z"
  "void __cdecl FunctionDefinedWithInjectedName(struct TypeWithFriendDefinition<int>)" = true.
Proof. vm_compute. reflexivity. Qed.
Example vec_0938 : v_sub 0 "?bar@?$UUIDType4@$1?_GUID_12345678_1234_1234_1234_1234567890ab@@3U__s_GUID@@B@@QAEXXZ"
  "void __thiscall UUIDType4<&struct __s_GUID const _GUID_12345678_1234_1234_1234_1234567890ab>::bar(void)" = true.
Proof. vm_compute. reflexivity. Qed.
Example vec_0939 : v_sub 0 "??$f@US@@$1?g@1@QEAAXXZ@@YAXXZ"
  "void __cdecl f<struct S, &public: void __cdecl S::g(void)>(void)" = true.
Proof. vm_compute. reflexivity. Qed.
Example vec_0940 : v_sub 0 "??$?0N@?$Foo@H@@QEAA@N@Z"
  "__cdecl Foo<int>::Foo<int><double>(double)" = true.
Proof. vm_compute. reflexivity. Qed.
Example vec_0941 : v_sub 0 "?f@C@@WBA@EAAHXZ"
  "[thunk]: public: virtual int __cdecl C::f`adjustor{16}'(void)" = true.
Proof. vm_compute. reflexivity. Qed.
Example vec_0942 : v_sub 0 "??_EDerived@@$4PPPPPPPM@A@EAAPEAXI@Z"
  "[thunk]: public: virtual void * __cdecl Derived::`vector deleting dtor'`vtordisp{-4, 0}'(unsigned int)" = true.
Proof. vm_compute. reflexivity. Qed.
Example vec_0943 : v_sub 0 "?f@A@simple@@$R477PPPPPPPM@7AEXXZ"
  "[thunk]: public: virtual void __thiscall simple::A::f`vtordispex{8, 8, -4, 8}'(void)" = true.
Proof. vm_compute. reflexivity. Qed.
Example vec_0944 : v_sub 0 "??_9Base@@$B7AA"
  "[thunk]: __cdecl Base::`vcall'{8, {flat}}" = true.
Proof. vm_compute. reflexivity. Qed.
Example vec_0945 : v_sub 0 "?bar@Foo@@SGXXZ"
  "static void __stdcall Foo::bar(void)" = true.
Proof. vm_compute. reflexivity. Qed.
Example vec_0946 : v_sub 0 "?bar@Foo@@QAGXXZ"
  "void __stdcall Foo::bar(void)" = true.
Proof. vm_compute. reflexivity. Qed.
Example vec_0947 : v_sub 0 "?f2@@YIXXZ"
  "void __fastcall f2(void)" = true.
Proof. vm_compute. reflexivity. Qed.
Example vec_0948 : v_sub 0 "?f1@@YGXXZ"
  "void __stdcall f1(void)" = true.
Proof. vm_compute. reflexivity. Qed.
Example vec_0949 : v_sub 0 "?f5@@YCXXZ"
  "void __pascal f5(void)" = true.
Proof. vm_compute. reflexivity. Qed.
Example vec_0950 : v_eq 64 "?world@hello@@QEBAXXZ"
  "public: void __cdecl hello::world(void)" = true.
Proof. vm_compute. reflexivity. Qed.
Example vec_0951 : v_eq 64 "?world@hello@@QECAXXZ"
  "public: void __cdecl hello::world(void)" = true.
Proof. vm_compute. reflexivity. Qed.
Example vec_0952 : v_eq 64 "?world@hello@@QEIAAXXZ"
  "public: void __cdecl hello::world(void)" = true.
Proof. vm_compute. reflexivity. Qed.
Example vec_0953 : v_eq 64 "?world@hello@@QEFAAXXZ"
  "public: void __cdecl hello::world(void)" = true.
Proof. vm_compute. reflexivity. Qed.
Example vec_0954 : v_eq 64 "?a@FTypeWithQuals@@3U?$S@$$A8@@BAHXZ@1@A"
  "struct FTypeWithQuals::S<int __cdecl(void)> FTypeWithQuals::a" = true.
Proof. vm_compute. reflexivity. Qed.
Example vec_0955 : v_eq 64 "?b@FTypeWithQuals@@3U?$S@$$A8@@CAHXZ@1@A"
  "struct FTypeWithQuals::S<int __cdecl(void)> FTypeWithQuals::b" = true.
Proof. vm_compute. reflexivity. Qed.
Example vec_0956 : v_eq 64 "?c@FTypeWithQuals@@3U?$S@$$A8@@IAAHXZ@1@A"
  "struct FTypeWithQuals::S<int __cdecl(void)> FTypeWithQuals::c" = true.
Proof. vm_compute. reflexivity. Qed.
Example vec_0957 : v_eq 64 "?d@FTypeWithQuals@@3U?$S@$$A8@@GBAHXZ@1@A"
  "struct FTypeWithQuals::S<int __cdecl(void)> FTypeWithQuals::d" = true.
Proof. vm_compute. reflexivity. Qed.
Example vec_0958 : v_eq 64 "?e@FTypeWithQuals@@3U?$S@$$A8@@GCAHXZ@1@A"
  "struct FTypeWithQuals::S<int __cdecl(void)> FTypeWithQuals::e" = true.
Proof. vm_compute. reflexivity. Qed.
Example vec_0959 : v_eq 64 "?f@FTypeWithQuals@@3U?$S@$$A8@@IGAAHXZ@1@A"
  "struct FTypeWithQuals::S<int __cdecl(void)> FTypeWithQuals::f" = true.
Proof. vm_compute. reflexivity. Qed.
Example vec_0960 : v_eq 64 "?g@FTypeWithQuals@@3U?$S@$$A8@@HBAHXZ@1@A"
  "struct FTypeWithQuals::S<int __cdecl(void)> FTypeWithQuals::g" = true.
Proof. vm_compute. reflexivity. Qed.
Example vec_0961 : v_eq 64 "?h@FTypeWithQuals@@3U?$S@$$A8@@HCAHXZ@1@A"
  "struct FTypeWithQuals::S<int __cdecl(void)> FTypeWithQuals::h" = true.
Proof. vm_compute. reflexivity. Qed.
Example vec_0962 : v_eq 64 "?i@FTypeWithQuals@@3U?$S@$$A8@@IHAAHXZ@1@A"
  "struct FTypeWithQuals::S<int __cdecl(void)> FTypeWithQuals::i" = true.
Proof. vm_compute. reflexivity. Qed.
Example vec_0963 : v_eq 64 "?j@FTypeWithQuals@@3U?$S@$$A6AHXZ@1@A"
  "struct FTypeWithQuals::S<int __cdecl(void)> FTypeWithQuals::j" = true.
Proof. vm_compute. reflexivity. Qed.
Example vec_0964 : v_eq 64 "?k@FTypeWithQuals@@3U?$S@$$A8@@GAAHXZ@1@A"
  "struct FTypeWithQuals::S<int __cdecl(void)> FTypeWithQuals::k" = true.
Proof. vm_compute. reflexivity. Qed.
Example vec_0965 : v_eq 64 "?l@FTypeWithQuals@@3U?$S@$$A8@@HAAHXZ@1@A"
  "struct FTypeWithQuals::S<int __cdecl(void)> FTypeWithQuals::l" = true.
Proof. vm_compute. reflexivity. Qed.
Example vec_0966 : v_eq 128 "?unaligned_foo5@@YAXPIFAH@Z"
  "void cdecl unaligned_foo5(int unaligned *restrict)" = true.
Proof. vm_compute. reflexivity. Qed.
Example vec_0967 : v_eq 128 "?beta@@YI_N_J_W@Z"
  "bool fastcall beta(__int64, wchar_t)" = true.
Proof. vm_compute. reflexivity. Qed.
Example vec_0968 : v_eq 128 "?f5@@YCXXZ"
  "void pascal f5(void)" = true.
Proof. vm_compute. reflexivity. Qed.
Example vec_0969 : v_eq 128 "?j@@3P6GHCE@ZA"
  "int (stdcall *j)(signed char, unsigned char)" = true.
Proof. vm_compute. reflexivity. Qed.
Example vec_0970 : v_eq 128 "?mbb@S@@QAEX_N0@Z"
  "public: void thiscall S::mbb(bool, bool)" = true.
Proof. vm_compute. reflexivity. Qed.
Example vec_0971 : v_eq 128 "?vector_func@@YQXXZ"
  "void vectorcall vector_func(void)" = true.
Proof. vm_compute. reflexivity. Qed.
Example vec_0972 : v_eq 256 "?unaligned_foo5@@YAXPIFAH@Z"
  "void unaligned_foo5(int *)" = true.
Proof. vm_compute. reflexivity. Qed.
Example vec_0973 : v_eq 256 "?beta@@YI_N_J_W@Z"
  "bool beta(__int64, wchar_t)" = true.
Proof. vm_compute. reflexivity. Qed.
Example vec_0974 : v_eq 256 "?f5@@YCXXZ"
  "void f5(void)" = true.
Proof. vm_compute. reflexivity. Qed.
Example vec_0975 : v_eq 256 "?j@@3P6GHCE@ZA"
  "int (*j)(signed char, unsigned char)" = true.
Proof. vm_compute. reflexivity. Qed.
Example vec_0976 : v_eq 256 "?mbb@S@@QAEX_N0@Z"
  "public: void S::mbb(bool, bool)" = true.
Proof. vm_compute. reflexivity. Qed.
Example vec_0977 : v_eq 256 "?vector_func@@YQXXZ"
  "void vector_func(void)" = true.
Proof. vm_compute. reflexivity. Qed.
Example vec_0978 : v_eq 512 "?foo@@YAXI@Z"
  "foo" = true.
Proof. vm_compute. reflexivity. Qed.
Example vec_0979 : v_eq 512 "?foobarbazqux@NB@PR13207@@YAXV?$Y@VX@NB@PR13207@@@12@V?$Y@V?$Y@VX@NB@PR13207@@@NB@PR13207@@@NA@2@V412@2V?$Y@V?$Y@V?$Y@VX@NB@PR13207@@@NB@PR13207@@@NB@PR13207@@@52@@Z"
  "PR13207::NB::foobarbazqux" = true.
Proof. vm_compute. reflexivity. Qed.
Example vec_0980 : v_eq 512 "??$f@US@@$1?g@1@QEAAXXZ@@YAXXZ"
  "f<S, &S::g>" = true.
Proof. vm_compute. reflexivity. Qed.
Example vec_0981 : v_eq 512 "?foo_sad@@YAXSEAD@Z"
  "foo_sad" = true.
Proof. vm_compute. reflexivity. Qed.
Example vec_0982 : v_eq 512 "??$WrapFnPtr@$1?VoidFn@@YAXXZ@@YAXXZ"
  "WrapFnPtr<&VoidFn>" = true.
Proof. vm_compute. reflexivity. Qed.
Example vec_0983 : v_eq 512 "??$CallMethod@UM@@$0A@@@YAXAAUM@@@Z"
  "CallMethod<M, 0>" = true.
Proof. vm_compute. reflexivity. Qed.
Example vec_0984 : v_eq 512 "?fun@@YAXU?$UUIDType1@Uuuid@@$1?_GUID_12345678_1234_1234_1234_1234567890ab@@3U__s_GUID@@B@@@Z"
  "fun" = true.
Proof. vm_compute. reflexivity. Qed.
Example vec_0985 : v_eq 512 "?abc_foo@@YA?AV?$A@DV?$B@D@N@@V?$C@D@2@@N@@XZ"
  "abc_foo" = true.
Proof. vm_compute. reflexivity. Qed.
Example vec_0986 : v_eq 512 "?f2@@YA?BUS@@XZ"
  "f2" = true.
Proof. vm_compute. reflexivity. Qed.
Example vec_0987 : v_eq 512 "??Hfoo@@QAEHH@Z"
  "foo::operator+" = true.
Proof. vm_compute. reflexivity. Qed.
Example vec_0988 : v_eq 512 "?M@?1??L@@YAHXZ@4HA"
  "`L'::`2'::M" = true.
Proof. vm_compute. reflexivity. Qed.
Example vec_0989 : v_eq 512 "?h2@@3QBHB"
  "h2" = true.
Proof. vm_compute. reflexivity. Qed.
Example vec_0990 : v_eq 512 "??$Foo@H@?$BoolTemplate@$00@@QEAAXH@Z"
  "BoolTemplate<1>::Foo<int>" = true.
Proof. vm_compute. reflexivity. Qed.
Example vec_0991 : v_eq 512 "??0?$IntTemplate@$0L@@@QAE@XZ"
  "IntTemplate<11>::IntTemplate<11>" = true.
Proof. vm_compute. reflexivity. Qed.
Example vec_0992 : v_eq 512 "??_V@YAXPEAXAEAVklass@@@Z"
  "operator delete[]" = true.
Proof. vm_compute. reflexivity. Qed.
Example vec_0993 : v_eq 512 "??1klass@@QEAA@XZ"
  "klass::~klass" = true.
Proof. vm_compute. reflexivity. Qed.
Example vec_0994 : v_eq 512 "?d@FTypeWithQuals@@3U?$S@$$A8@@GBAHXZ@1@A"
  "FTypeWithQuals::d" = true.
Proof. vm_compute. reflexivity. Qed.
Example vec_0995 : v_eq 512 "??_7Base@@6B@"
  "Base::`vftable'" = true.
Proof. vm_compute. reflexivity. Qed.
Example vec_0996 : v_eq 512 "?h1@@YAAIAHXZ"
  "h1" = true.
Proof. vm_compute. reflexivity. Qed.
Example vec_0997 : v_eq 512 "?x@ns@@3PEAV?$klass@HH@1@EA"
  "ns::x" = true.
Proof. vm_compute. reflexivity. Qed.
Example vec_0998 : v_eq 512 "??2OverloadedNewDelete@@SAPAXI@Z"
  "OverloadedNewDelete::operator new" = true.
Proof. vm_compute. reflexivity. Qed.
Example vec_0999 : v_eq 512 "?x@@YAXMH@Z"
  "x" = true.
Proof. vm_compute. reflexivity. Qed.
Example vec_1000 : v_eq 512 "?f@UnnamedType@@YAXQAPAU<unnamed-type-T1>@S@1@@Z"
  "UnnamedType::f" = true.
Proof. vm_compute. reflexivity. Qed.
Example vec_1001 : v_eq 512 "?spam@NB@PR13207@@YAXV?$Y@VX@NA@PR13207@@@NA@2@@Z"
  "PR13207::NB::spam" = true.
Proof. vm_compute. reflexivity. Qed.
Example vec_1002 : v_eq 512 "??__FFoo@@YAXXZ"
  "`dynamic atexit destructor for 'Foo''" = true.
Proof. vm_compute. reflexivity. Qed.
Example vec_1003 : v_eq 512 "?delta@@YAXQAHABJ@Z"
  "delta" = true.
Proof. vm_compute. reflexivity. Qed.
Example vec_1004 : v_eq 512 "?foo@NC@PR13207@@YAXV?$Y@VX@NB@PR13207@@@12@@Z"
  "PR13207::NC::foo" = true.
Proof. vm_compute. reflexivity. Qed.
Example vec_1005 : v_eq 512 "?lambda@?1??define_lambda@@YAHXZ@4V<lambda_1>@?0??1@YAHXZ@A"
  "`define_lambda'::`2'::lambda" = true.
Proof. vm_compute. reflexivity. Qed.
Example vec_1006 : v_eq 512 "?X@?$C@H@C@0@2HB"
  "X::C::C<int>::X" = true.
Proof. vm_compute. reflexivity. Qed.
Example vec_1007 : v_eq 512 "?d5@@YAPBV?$B@VA@@@@XZ"
  "d5" = true.
Proof. vm_compute. reflexivity. Qed.
Example vec_1008 : v_eq 512 "??IBase@@QEAAHH@Z"
  "Base::operator&" = true.
Proof. vm_compute. reflexivity. Qed.
Example vec_1009 : v_eq 512 "?ret_fnptrarray@@YAP6AXQAH@ZXZ"
  "ret_fnptrarray" = true.
Proof. vm_compute. reflexivity. Qed.
Example vec_1010 : v_eq 512 "??Pklass@@QEAAHH@Z"
  "klass::operator>=" = true.
Proof. vm_compute. reflexivity. Qed.
Example vec_1011 : v_eq 512 "??$forward@P8?$DecoderStream@$01@media@@AEXXZ@std@@YA$$QAP8?$DecoderStream@$01@media@@AEXXZAAP812@AEXXZ@Z"
  "std::forward<void (__thiscall media::DecoderStream<2>::*)(void)>" = true.
Proof. vm_compute. reflexivity. Qed.
Example vec_1012 : v_eq 512 "?foo_piad@@YAXPIAD@Z"
  "foo_piad" = true.
Proof. vm_compute. reflexivity. Qed.
Example vec_1013 : v_eq 512 "??4Base@@QEAAHH@Z"
  "Base::operator=" = true.
Proof. vm_compute. reflexivity. Qed.
Example vec_1014 : v_eq 512 "?s0@PR13182@@3PADA"
  "PR13182::s0" = true.
Proof. vm_compute. reflexivity. Qed.
Example vec_1015 : v_eq 512 "?foo_papcd@@YAXPEAPECD@Z"
  "foo_papcd" = true.
Proof. vm_compute. reflexivity. Qed.
Example vec_1016 : v_eq 512 "?x@@YAXMHZZ"
  "x" = true.
Proof. vm_compute. reflexivity. Qed.
Example vec_1017 : v_eq 512 "??0?$IntTemplate@$0CAB@@@QAE@XZ"
  "IntTemplate<513>::IntTemplate<513>" = true.
Proof. vm_compute. reflexivity. Qed.
Example vec_1018 : v_eq 512 "??0?$ClassTemplate@$J??_9MostGeneral@@$BA@AEA@M@3@@QAE@XZ"
  "ClassTemplate<{MostGeneral::`vcall'{0}, 0, 12, 4}>::ClassTemplate<{MostGeneral::`vcall'{0}, 0, 12, 4}>" = true.
Proof. vm_compute. reflexivity. Qed.
Example vec_1019 : v_eq 512 "??CBase@@QEAAHXZ"
  "Base::operator->" = true.
Proof. vm_compute. reflexivity. Qed.
Example vec_1020 : v_eq 512 "?h3@@3QIAHIA"
  "h3" = true.
Proof. vm_compute. reflexivity. Qed.
Example vec_1021 : v_eq 512 "??OBase@@QEAAHH@Z"
  "Base::operator>" = true.
Proof. vm_compute. reflexivity. Qed.
Example vec_1022 : v_eq 512 "?M@?1???$L@H@@YAHXZ@4HA"
  "`L<int>'::`2'::M" = true.
Proof. vm_compute. reflexivity. Qed.
Example vec_1023 : v_eq 512 "??Vklass@@QEAAHH@Z"
  "klass::operator&&" = true.
Proof. vm_compute. reflexivity. Qed.
Example vec_1024 : v_eq 512 "?c10@@YAACVA@@XZ"
  "c10" = true.
Proof. vm_compute. reflexivity. Qed.
Example vec_1025 : v_eq 512 "?n@@3U?$J@UN@@$HA@@@A"
  "n" = true.
Proof. vm_compute. reflexivity. Qed.
Example vec_1026 : v_eq 512 "??0?$Class@$$BY04H@@QEAA@XZ"
  "Class<int[5]>::Class<int[5]>" = true.
Proof. vm_compute. reflexivity. Qed.
Example vec_1027 : v_eq 512 "??2@YAPAXI@Z"
  "operator new" = true.
Proof. vm_compute. reflexivity. Qed.
Example vec_1028 : v_eq 512 "??_9Base@@$B7AA"
  "Base::`vcall'{8}" = true.
Proof. vm_compute. reflexivity. Qed.
Example vec_1029 : v_eq 512 "?M@?0??L@@YAHXZ@4HA"
  "`L'::`1'::M" = true.
Proof. vm_compute. reflexivity. Qed.
Example vec_1030 : v_eq 512 "?foo@A@PR19361@@QIHAEXXZ"
  "PR19361::A::foo" = true.
Proof. vm_compute. reflexivity. Qed.
Example vec_1031 : v_eq 512 "?k@FTypeWithQuals@@3U?$S@$$A8@@GAAHXZ@1@A"
  "FTypeWithQuals::k" = true.
Proof. vm_compute. reflexivity. Qed.
Example vec_1032 : v_eq 512 "??$FunctionPointerTemplate@$1?spam@@YAXXZ@@YAXXZ"
  "FunctionPointerTemplate<&spam>" = true.
Proof. vm_compute. reflexivity. Qed.
Example vec_1033 : v_eq 512 "?foo_pcrcd@@YAXPECRECD@Z"
  "foo_pcrcd" = true.
Proof. vm_compute. reflexivity. Qed.
Example vec_1034 : v_eq 512 "?l@FTypeWithQuals@@3U?$S@$$A8@@HAAHXZ@1@A"
  "FTypeWithQuals::l" = true.
Proof. vm_compute. reflexivity. Qed.
Example vec_1035 : v_eq 512 "?mangle_yes_backref1@@YAXQEAH0@Z"
  "mangle_yes_backref1" = true.
Proof. vm_compute. reflexivity. Qed.
Example vec_1036 : v_eq 512 "?x@@3QEBHEB"
  "x" = true.
Proof. vm_compute. reflexivity. Qed.
Example vec_1037 : v_eq 512 "?priv_stat_foo@S@@CAXXZ"
  "S::priv_stat_foo" = true.
Proof. vm_compute. reflexivity. Qed.
Example vec_1038 : v_eq 512 "??$CallMethod@UO@@$H??_91@$BA@AE3@@YAXAAUO@@@Z"
  "CallMethod<O, {O::`vcall'{0}, 4}>" = true.
Proof. vm_compute. reflexivity. Qed.
Example vec_1039 : v_eq 512 "??0?$IntTemplate@$0L@@@QEAA@XZ"
  "IntTemplate<11>::IntTemplate<11>" = true.
Proof. vm_compute. reflexivity. Qed.
Example vec_1040 : v_eq 512 "?bar@NB@PR13207@@YAXV?$Y@VX@NB@PR13207@@@NA@2@@Z"
  "PR13207::NB::bar" = true.
Proof. vm_compute. reflexivity. Qed.
Example vec_1041 : v_eq 512 "?mangle_yes_backref0@@YAXQEAH0@Z"
  "mangle_yes_backref0" = true.
Proof. vm_compute. reflexivity. Qed.
Example vec_1042 : v_eq 512 "?foo_fnptrconst@@YAXP6AXQAH@Z@Z"
  "foo_fnptrconst" = true.
Proof. vm_compute. reflexivity. Qed.
Example vec_1043 : v_eq 512 "??_3Base@@QEAAHH@Z"
  "Base::operator<<=" = true.
Proof. vm_compute. reflexivity. Qed.
Example vec_1044 : v_eq 512 "??_F?$SomeTemplate@H@@QAEXXZ"
  "SomeTemplate<int>::`default constructor closure'" = true.
Proof. vm_compute. reflexivity. Qed.
Example vec_1045 : v_eq 512 "?foo_qapad@@YAXQEAPEAD@Z"
  "foo_qapad" = true.
Proof. vm_compute. reflexivity. Qed.
Example vec_1046 : v_eq 512 "??_R3Base@@8"
  "Base::`RTTI Class Hierarchy Descriptor'" = true.
Proof. vm_compute. reflexivity. Qed.
Example vec_1047 : v_eq 512 "?zeta@@YAXP6AHHH@Z@Z"
  "zeta" = true.
Proof. vm_compute. reflexivity. Qed.
Example vec_1048 : v_eq 512 "?g2@@YAXUS@@0@Z"
  "g2" = true.
Proof. vm_compute. reflexivity. Qed.
Example vec_1049 : v_eq 512 "?x@@3P6AHMNH@ZEA"
  "x" = true.
Proof. vm_compute. reflexivity. Qed.
Example vec_1050 : v_eq 512 "?foo_fnptrbackref1@@YAXP6AXQEAH@Z1@Z"
  "foo_fnptrbackref1" = true.
Proof. vm_compute. reflexivity. Qed.
Example vec_1051 : v_eq 512 "?s1@PR13182@@3PADA"
  "PR13182::s1" = true.
Proof. vm_compute. reflexivity. Qed.
Example vec_1052 : v_eq 512 "?foo_aay144cbh@@YAXAAY144$$CBH@Z"
  "foo_aay144cbh" = true.
Proof. vm_compute. reflexivity. Qed.
Example vec_1053 : v_eq 512 "??Dklass@@QEAAHXZ"
  "klass::operator*" = true.
Proof. vm_compute. reflexivity. Qed.
Example vec_1054 : v_eq 512 "??0?$IntTemplate@$0EAC@@@QEAA@XZ"
  "IntTemplate<1026>::IntTemplate<1026>" = true.
Proof. vm_compute. reflexivity. Qed.
Example vec_1055 : v_eq 512 "??0?$IntTemplate@$0A@@@QEAA@XZ"
  "IntTemplate<0>::IntTemplate<0>" = true.
Proof. vm_compute. reflexivity. Qed.
Example vec_1056 : v_eq 512 "??0?$IntTemplate@$0?8@@QEAA@XZ"
  "IntTemplate<-9>::IntTemplate<-9>" = true.
Proof. vm_compute. reflexivity. Qed.
Example vec_1057 : v_eq 512 "??0?$Class@$$BY04$$CBH@@QEAA@XZ"
  "Class<int const[5]>::Class<int const[5]>" = true.
Proof. vm_compute. reflexivity. Qed.
Example vec_1058 : v_eq 512 "?function_pointer@@YAXV?$C@P6AXXZ@@@Z"
  "function_pointer" = true.
Proof. vm_compute. reflexivity. Qed.
Example vec_1059 : v_eq 512 "??$unaligned_x@PFAH@@3PFAHA"
  "unaligned_x<int __unaligned *>" = true.
Proof. vm_compute. reflexivity. Qed.
Example vec_1060 : v_eq 512 ".?AVtype_info@@"
  "type_info" = true.
Proof. vm_compute. reflexivity. Qed.
Example vec_1061 : v_sub 0 ".?AUМосква@@"
  "struct Москва `RTTI Type Descriptor Name'" = true.
Proof. vm_compute. reflexivity. Qed.
Example vec_1062 : v_sub 0 ".?AU東京@@"
  "struct 東京 `RTTI Type Descriptor Name'" = true.
Proof. vm_compute. reflexivity. Qed.
Example vec_1063 : v_sub 0 "?_Do_call@?$_Func_impl_no_alloc@V<lambda_1>@?6???$?RV<lambda_6>@?EF@??OnEvent@Interface@@UEAAXAEBVEvent@@@Z@@<lambda_3>@?DB@??OnEvent@Interface@@UEAAXAEBVEvent@@@Z@QEBA?A_PV<lambda_6>@?EF@??34@UEAAX0@Z@_N@Z@I$$V@std@@EEAAIXZ"
  "private: virtual unsigned int __cdecl std::_Func_impl_no_alloc<class `public: auto __cdecl `public: virtual void __cdecl Interface::OnEvent(class Event const &)'::`49'::<lambda_3>::operator()<class `public: virtual void __cdecl Interface::OnEvent(class Event const &)'::`69'::<lambda_6>>(class `public: virtual void __cdecl Interface::OnEvent(class Event const &)'::`69'::<lambda_6>, bool) const'::`7'::<lambda_1>, unsigned int>::_Do_call(void)" = true.
Proof. vm_compute. reflexivity. Qed.
Example vec_1064 : v_sub 0 "??$emplace_back@AEBM@?$vector@MV?$allocator@M@std@@@std@@QEAA?A_TAEBM@Z"
  "public: decltype(auto) __cdecl std::vector<float, class std::allocator<float>>::emplace_back<float const &>(float const &)" = true.
Proof. vm_compute. reflexivity. Qed.
Example vec_1065 : v_sub 0 "??$_Emplace_back_with_unused_capacity@AEBM@?$vector@MV?$allocator@M@std@@@std@@AEAA?A_TAEBM@Z"
  "private: decltype(auto) __cdecl std::vector<float, class std::allocator<float>>::_Emplace_back_with_unused_capacity<float const &>(float const &)" = true.
Proof. vm_compute. reflexivity. Qed.
Example vec_1066 : v_sub 0 "??$emplace_back@N@?$vector@NV?$allocator@N@std@@@std@@QEAA?A_T$$QEAN@Z"
  "public: decltype(auto) __cdecl std::vector<double, class std::allocator<double>>::emplace_back<double>(double &&)" = true.
Proof. vm_compute. reflexivity. Qed.
Example vec_1067 : v_sub 0 "??$_Emplace_back_with_unused_capacity@N@?$vector@NV?$allocator@N@std@@@std@@AEAA?A_T$$QEAN@Z"
  "private: decltype(auto) __cdecl std::vector<double, class std::allocator<double>>::_Emplace_back_with_unused_capacity<double>(double &&)" = true.
Proof. vm_compute. reflexivity. Qed.
Example vec_1068 : v_sub 0 "??$emplace_back@AEBN@?$vector@NV?$allocator@N@std@@@std@@QEAA?A_TAEBN@Z"
  "public: decltype(auto) __cdecl std::vector<double, class std::allocator<double>>::emplace_back<double const &>(double const &)" = true.
Proof. vm_compute. reflexivity. Qed.
Example vec_1069 : v_sub 0 "??$_Emplace_back_with_unused_capacity@AEBN@?$vector@NV?$allocator@N@std@@@std@@AEAA?A_TAEBN@Z"
  "private: decltype(auto) __cdecl std::vector<double, class std::allocator<double>>::_Emplace_back_with_unused_capacity<double const &>(double const &)" = true.
Proof. vm_compute. reflexivity. Qed.
Example vec_1070 : v_sub 0 "??$_To_address@PEAN@std@@YA?A_PAEBQEAN@Z"
  "auto __cdecl std::_To_address<double *>(double *const &)" = true.
Proof. vm_compute. reflexivity. Qed.
Example vec_1071 : v_sub 0 "??$_To_address@PEAM@std@@YA?A_PAEBQEAM@Z"
  "auto __cdecl std::_To_address<float *>(float *const &)" = true.
Proof. vm_compute. reflexivity. Qed.
Example vec_1072 : v_sub 0 "??$_Get_unwrapped@AEBQEAM@std@@YA?A_TAEBQEAM@Z"
  "decltype(auto) __cdecl std::_Get_unwrapped<float *const &>(float *const &)" = true.
Proof. vm_compute. reflexivity. Qed.
Example vec_1073 : v_sub 0 "??$_Get_unwrapped@AEBQEAN@std@@YA?A_TAEBQEAN@Z"
  "decltype(auto) __cdecl std::_Get_unwrapped<double *const &>(double *const &)" = true.
Proof. vm_compute. reflexivity. Qed.
Example vec_1074 : v_sub 0 "??$emplace_back@AEBH@?$vector@HV?$allocator@H@std@@@std@@QEAA?A_TAEBH@Z"
  "public: decltype(auto) __cdecl std::vector<int, class std::allocator<int>>::emplace_back<int const &>(int const &)" = true.
Proof. vm_compute. reflexivity. Qed.
Example vec_1075 : v_sub 0 "??$_Emplace_back_with_unused_capacity@AEBH@?$vector@HV?$allocator@H@std@@@std@@AEAA?A_TAEBH@Z"
  "private: decltype(auto) __cdecl std::vector<int, class std::allocator<int>>::_Emplace_back_with_unused_capacity<int const &>(int const &)" = true.
Proof. vm_compute. reflexivity. Qed.
Example vec_1076 : v_sub 0 "??$_Get_unwrapped@AEBQEAH@std@@YA?A_TAEBQEAH@Z"
  "decltype(auto) __cdecl std::_Get_unwrapped<int *const &>(int *const &)" = true.
Proof. vm_compute. reflexivity. Qed.
Example vec_1077 : v_sub 0 "??$_To_address@PEAH@std@@YA?A_PAEBQEAH@Z"
  "auto __cdecl std::_To_address<int *>(int *const &)" = true.
Proof. vm_compute. reflexivity. Qed.
Example vec_1078 : v_sub 0 "??$_Get_unwrapped@AEBQEAV?$vector@V?$vector@UMYRECT@@V?$allocator@UMYRECT@@@std@@@std@@V?$allocator@V?$vector@UMYRECT@@V?$allocator@UMYRECT@@@std@@@std@@@2@@std@@@std@@YA?A_TAEBQEAV?$vector@V?$vector@UMYRECT@@V?$allocator@UMYRECT@@@std@@@std@@V?$allocator@V?$vector@UMYRECT@@V?$allocator@UMYRECT@@@std@@@std@@@2@@0@@Z"
  "decltype(auto) __cdecl std::_Get_unwrapped<class std::vector<class std::vector<struct MYRECT, class std::allocator<struct MYRECT>>, class std::allocator<class std::vector<struct MYRECT, class std::allocator<struct MYRECT>>>> *const &>(class std::vector<class std::vector<struct MYRECT, class std::allocator<struct MYRECT>>, class std::allocator<class std::vector<struct MYRECT, class std::allocator<struct MYRECT>>>> *const &)" = true.
Proof. vm_compute. reflexivity. Qed.
Example vec_1079 : v_sub 0 "??$_Get_unwrapped@AEBQEAV?$vector@UMYRECT@@V?$allocator@UMYRECT@@@std@@@std@@@std@@YA?A_TAEBQEAV?$vector@UMYRECT@@V?$allocator@UMYRECT@@@std@@@0@@Z"
  "decltype(auto) __cdecl std::_Get_unwrapped<class std::vector<struct MYRECT, class std::allocator<struct MYRECT>> *const &>(class std::vector<struct MYRECT, class std::allocator<struct MYRECT>> *const &)" = true.
Proof. vm_compute. reflexivity. Qed.
Example vec_1080 : v_sub 0 "??$_Get_unwrapped@AEBQEAUMYRECT@@@std@@YA?A_TAEBQEAUMYRECT@@@Z"
  "decltype(auto) __cdecl std::_Get_unwrapped<struct MYRECT *const &>(struct MYRECT *const &)" = true.
Proof. vm_compute. reflexivity. Qed.
Example vec_1081 : v_sub 0 "??$emplace_back@M@?$vector@MV?$allocator@M@std@@@std@@QEAA?A_T$$QEAM@Z"
  "public: decltype(auto) __cdecl std::vector<float, class std::allocator<float>>::emplace_back<float>(float &&)" = true.
Proof. vm_compute. reflexivity. Qed.
Example vec_1082 : v_sub 0 "??$_Emplace_back_with_unused_capacity@M@?$vector@MV?$allocator@M@std@@@std@@AEAA?A_T$$QEAM@Z"
  "private: decltype(auto) __cdecl std::vector<float, class std::allocator<float>>::_Emplace_back_with_unused_capacity<float>(float &&)" = true.
Proof. vm_compute. reflexivity. Qed.
Example vec_1083 : v_eq 0 "??$prefer_fn@V?$any_executor@U?$context_as_t@AEAVexecution_context@asio@boost@@@execution@asio@boost@@U?$never_t@$0A@@blocking@detail@234@U?$prefer_only@U?$possibly_t@$0A@@blocking@detail@execution@asio@boost@@@234@U?$prefer_only@U?$tracked_t@$0A@@outstanding_work@detail@execution@asio@boost@@@234@U?$prefer_only@U?$untracked_t@$0A@@outstanding_work@detail@execution@asio@boost@@@234@U?$prefer_only@U?$fork_t@$0A@@relationship@detail@execution@asio@boost@@@234@U?$prefer_only@U?$continuation_t@$0A@@relationship@detail@execution@asio@boost@@@234@@execution@asio@boost@@V?$basic_executor_type@V?$allocator@X@std@@$0A@@io_context@34@U?$prefer_only@U?$tracked_t@$0A@@outstanding_work@detail@execution@asio@boost@@@234@@any_executor_base@detail@execution@asio@boost@@KA?AV?$any_executor@U?$context_as_t@AEAVexecution_context@asio@boost@@@execution@asio@boost@@U?$never_t@$0A@@blocking@detail@234@U?$prefer_only@U?$possibly_t@$0A@@blocking@detail@execution@asio@boost@@@234@U?$prefer_only@U?$tracked_t@$0A@@outstanding_work@detail@execution@asio@boost@@@234@U?$prefer_only@U?$untracked_t@$0A@@outstanding_work@detail@execution@asio@boost@@@234@U?$prefer_only@U?$fork_t@$0A@@relationship@detail@execution@asio@boost@@@234@U?$prefer_only@U?$continuation_t@$0A@@relationship@detail@execution@asio@boost@@@234@@234@PEBX0@Z"
  "protected: static class boost::asio::execution::any_executor<struct boost::asio::execution::context_as_t<class boost::asio::execution_context &>, struct boost::asio::execution::detail::blocking::never_t<0>, struct boost::asio::execution::prefer_only<struct boost::asio::execution::detail::blocking::possibly_t<0>>, struct boost::asio::execution::prefer_only<struct boost::asio::execution::detail::outstanding_work::tracked_t<0>>, struct boost::asio::execution::prefer_only<struct boost::asio::execution::detail::outstanding_work::untracked_t<0>>, struct boost::asio::execution::prefer_only<struct boost::asio::execution::detail::relationship::fork_t<0>>, struct boost::asio::execution::prefer_only<struct boost::asio::execution::detail::relationship::continuation_t<0>>> __cdecl boost::asio::execution::detail::any_executor_base::prefer_fn<class boost::asio::execution::any_executor<struct boost::asio::execution::context_as_t<class boost::asio::execution_context &>, struct boost::asio::execution::detail::blocking::never_t<0>, struct boost::asio::execution::prefer_only<struct boost::asio::execution::detail::blocking::possibly_t<0>>, struct boost::asio::execution::prefer_only<struct boost::asio::execution::detail::outstanding_work::tracked_t<0>>, struct boost::asio::execution::prefer_only<struct boost::asio::execution::detail::outstanding_work::untracked_t<0>>, struct boost::asio::execution::prefer_only<struct boost::asio::execution::detail::relationship::fork_t<0>>, struct boost::asio::execution::prefer_only<struct boost::asio::execution::detail::relationship::continuation_t<0>>>, class boost::asio::io_context::basic_executor_type<class std::allocator<void>, 0>, struct boost::asio::execution::prefer_only<struct boost::asio::execution::detail::outstanding_work::tracked_t<0>>>(void const *, void const *)" = true.
Proof. vm_compute. reflexivity. Qed.
Example vec_1084 : v_sub 0 "??_C@_01CNACBAHC@?$PP?$AA@"
  """\xFF""" = true.
Proof. vm_compute. reflexivity. Qed.
Example vec_1085 : v_sub 0 "??_C@_01DEBJCBDD@?$PO?$AA@"
  """\xFE""" = true.
Proof. vm_compute. reflexivity. Qed.
Example vec_1086 : v_sub 0 "??_C@_01BPDEHCPA@?$PN?$AA@"
  """\xFD""" = true.
Proof. vm_compute. reflexivity. Qed.
Example vec_1087 : v_sub 0 "??_C@_01GCPEDLB@?$PM?$AA@"
  """\xFC""" = true.
Proof. vm_compute. reflexivity. Qed.
Example vec_1088 : v_sub 0 "??_C@_01EJGONFHG@?$PL?$AA@"
  """\xFB""" = true.
Proof. vm_compute. reflexivity. Qed.
Example vec_1089 : v_sub 0 "??_C@_01FAHFOEDH@?z?$AA@"
  """\xFA""" = true.
Proof. vm_compute. reflexivity. Qed.
Example vec_1090 : v_sub 0 "??_C@_01HLFILHPE@?y?$AA@"
  """\xF9""" = true.
Proof. vm_compute. reflexivity. Qed.
Example vec_1091 : v_sub 0 "??_C@_01GCEDIGLF@?x?$AA@"
  """\xF8""" = true.
Proof. vm_compute. reflexivity. Qed.
Example vec_1092 : v_sub 0 "??_C@_01OFNLJKHK@?w?$AA@"
  """\xF7""" = true.
Proof. vm_compute. reflexivity. Qed.
Example vec_1093 : v_sub 0 "??_C@_01PMMAKLDL@?v?$AA@"
  """\xF6""" = true.
Proof. vm_compute. reflexivity. Qed.
Example vec_1094 : v_sub 0 "??_C@_01NHONPIPI@?u?$AA@"
  """\xF5""" = true.
Proof. vm_compute. reflexivity. Qed.
Example vec_1095 : v_sub 0 "??_C@_01MOPGMJLJ@?t?$AA@"
  """\xF4""" = true.
Proof. vm_compute. reflexivity. Qed.
Example vec_1096 : v_sub 0 "??_C@_01IBLHFPHO@?s?$AA@"
  """\xF3""" = true.
Proof. vm_compute. reflexivity. Qed.
Example vec_1097 : v_sub 0 "??_C@_01JIKMGODP@?r?$AA@"
  """\xF2""" = true.
Proof. vm_compute. reflexivity. Qed.
Example vec_1098 : v_sub 0 "??_C@_01LDIBDNPM@?q?$AA@"
  """\xF1""" = true.
Proof. vm_compute. reflexivity. Qed.
Example vec_1099 : v_sub 0 "??_C@_01KKJKAMLN@?p?$AA@"
  """\xF0""" = true.
Proof. vm_compute. reflexivity. Qed.
Example vec_1100 : v_sub 0 "??_C@_01GHMAACCD@?o?$AA@"
  """\xEF""" = true.
Proof. vm_compute. reflexivity. Qed.
Example vec_1101 : v_sub 0 "??_C@_01HONLDDGC@?n?$AA@"
  """\xEE""" = true.
Proof. vm_compute. reflexivity. Qed.
Example vec_1102 : v_sub 0 "??_C@_01FFPGGAKB@?m?$AA@"
  """\xED""" = true.
Proof. vm_compute. reflexivity. Qed.
Example vec_1103 : v_sub 0 "??_C@_01EMONFBOA@?l?$AA@"
  """\xEC""" = true.
Proof. vm_compute. reflexivity. Qed.
Example vec_1104 : v_sub 0 "??_C@_01DKMMHCH@?k?$AA@"
  """\xEB""" = true.
Proof. vm_compute. reflexivity. Qed.
Example vec_1105 : v_sub 0 "??_C@_01BKLHPGGG@?j?$AA@"
  """\xEA""" = true.
Proof. vm_compute. reflexivity. Qed.
Example vec_1106 : v_sub 0 "??_C@_01DBJKKFKF@?i?$AA@"
  """\xE9""" = true.
Proof. vm_compute. reflexivity. Qed.
Example vec_1107 : v_sub 0 "??_C@_01CIIBJEOE@?h?$AA@"
  """\xE8""" = true.
Proof. vm_compute. reflexivity. Qed.
Example vec_1108 : v_sub 0 "??_C@_01KPBJIICL@?g?$AA@"
  """\xE7""" = true.
Proof. vm_compute. reflexivity. Qed.
Example vec_1109 : v_sub 0 "??_C@_01LGACLJGK@?f?$AA@"
  """\xE6""" = true.
Proof. vm_compute. reflexivity. Qed.
Example vec_1110 : v_sub 0 "??_C@_01JNCPOKKJ@?e?$AA@"
  """\xE5""" = true.
Proof. vm_compute. reflexivity. Qed.
Example vec_1111 : v_sub 0 "??_C@_01IEDENLOI@?d?$AA@"
  """\xE4""" = true.
Proof. vm_compute. reflexivity. Qed.
Example vec_1112 : v_sub 0 "??_C@_01MLHFENCP@?c?$AA@"
  """\xE3""" = true.
Proof. vm_compute. reflexivity. Qed.
Example vec_1113 : v_sub 0 "??_C@_01NCGOHMGO@?b?$AA@"
  """\xE2""" = true.
Proof. vm_compute. reflexivity. Qed.
Example vec_1114 : v_sub 0 "??_C@_01PJEDCPKN@?a?$AA@"
  """\xE1""" = true.
Proof. vm_compute. reflexivity. Qed.
Example vec_1115 : v_sub 0 "??_C@_01OAFIBOOM@?$OA?$AA@"
  """\xE0""" = true.
Proof. vm_compute. reflexivity. Qed.
Example vec_1116 : v_sub 0 "??_C@_01LIIGDENA@?$NP?$AA@"
  """\xDF""" = true.
Proof. vm_compute. reflexivity. Qed.
Example vec_1117 : v_sub 0 "??_C@_01KBJNAFJB@?$NO?$AA@"
  """\xDE""" = true.
Proof. vm_compute. reflexivity. Qed.
Example vec_1118 : v_sub 0 "??_C@_01IKLAFGFC@?$NN?$AA@"
  """\xDD""" = true.
Proof. vm_compute. reflexivity. Qed.
Example vec_1119 : v_sub 0 "??_C@_01JDKLGHBD@?$NM?$AA@"
  """\xDC""" = true.
Proof. vm_compute. reflexivity. Qed.
Example vec_1120 : v_sub 0 "??_C@_01NMOKPBNE@?$NL?$AA@"
  """\xDB""" = true.
Proof. vm_compute. reflexivity. Qed.
Example vec_1121 : v_sub 0 "??_C@_01MFPBMAJF@?Z?$AA@"
  """\xDA""" = true.
Proof. vm_compute. reflexivity. Qed.
Example vec_1122 : v_sub 0 "??_C@_01OONMJDFG@?Y?$AA@"
  """\xD9""" = true.
Proof. vm_compute. reflexivity. Qed.
Example vec_1123 : v_sub 0 "??_C@_01PHMHKCBH@?X?$AA@"
  """\xD8""" = true.
Proof. vm_compute. reflexivity. Qed.
Example vec_1124 : v_sub 0 "??_C@_01HAFPLONI@?W?$AA@"
  """\xD7""" = true.
Proof. vm_compute. reflexivity. Qed.
Example vec_1125 : v_sub 0 "??_C@_01GJEEIPJJ@?V?$AA@"
  """\xD6""" = true.
Proof. vm_compute. reflexivity. Qed.
Example vec_1126 : v_sub 0 "??_C@_01ECGJNMFK@?U?$AA@"
  """\xD5""" = true.
Proof. vm_compute. reflexivity. Qed.
Example vec_1127 : v_sub 0 "??_C@_01FLHCONBL@?T?$AA@"
  """\xD4""" = true.
Proof. vm_compute. reflexivity. Qed.
Example vec_1128 : v_sub 0 "??_C@_01BEDDHLNM@?S?$AA@"
  """\xD3""" = true.
Proof. vm_compute. reflexivity. Qed.
Example vec_1129 : v_sub 0 "??_C@_01NCIEKJN@?R?$AA@"
  """\xD2""" = true.
Proof. vm_compute. reflexivity. Qed.
Example vec_1130 : v_sub 0 "??_C@_01CGAFBJFO@?Q?$AA@"
  """\xD1""" = true.
Proof. vm_compute. reflexivity. Qed.
Example vec_1131 : v_sub 0 "??_C@_01DPBOCIBP@?P?$AA@"
  """\xD0""" = true.
Proof. vm_compute. reflexivity. Qed.
Example vec_1132 : v_sub 0 "??_C@_01PCEECGIB@?O?$AA@"
  """\xCF""" = true.
Proof. vm_compute. reflexivity. Qed.
Example vec_1133 : v_sub 0 "??_C@_01OLFPBHMA@?N?$AA@"
  """\xCE""" = true.
Proof. vm_compute. reflexivity. Qed.
Example vec_1134 : v_sub 0 "??_C@_01MAHCEEAD@?M?$AA@"
  """\xCD""" = true.
Proof. vm_compute. reflexivity. Qed.
Example vec_1135 : v_sub 0 "??_C@_01NJGJHFEC@?L?$AA@"
  """\xCC""" = true.
Proof. vm_compute. reflexivity. Qed.
Example vec_1136 : v_sub 0 "??_C@_01JGCIODIF@?K?$AA@"
  """\xCB""" = true.
Proof. vm_compute. reflexivity. Qed.
Example vec_1137 : v_sub 0 "??_C@_01IPDDNCME@?J?$AA@"
  """\xCA""" = true.
Proof. vm_compute. reflexivity. Qed.
Example vec_1138 : v_sub 0 "??_C@_01KEBOIBAH@?I?$AA@"
  """\xC9""" = true.
Proof. vm_compute. reflexivity. Qed.
Example vec_1139 : v_sub 0 "??_C@_01LNAFLAEG@?H?$AA@"
  """\xC8""" = true.
Proof. vm_compute. reflexivity. Qed.
Example vec_1140 : v_sub 0 "??_C@_01DKJNKMIJ@?G?$AA@"
  """\xC7""" = true.
Proof. vm_compute. reflexivity. Qed.
Example vec_1141 : v_sub 0 "??_C@_01CDIGJNMI@?F?$AA@"
  """\xC6""" = true.
Proof. vm_compute. reflexivity. Qed.
Example vec_1142 : v_sub 0 "??_C@_01IKLMOAL@?E?$AA@"
  """\xC5""" = true.
Proof. vm_compute. reflexivity. Qed.
Example vec_1143 : v_sub 0 "??_C@_01BBLAPPEK@?D?$AA@"
  """\xC4""" = true.
Proof. vm_compute. reflexivity. Qed.
Example vec_1144 : v_sub 0 "??_C@_01FOPBGJIN@?C?$AA@"
  """\xC3""" = true.
Proof. vm_compute. reflexivity. Qed.
Example vec_1145 : v_sub 0 "??_C@_01EHOKFIMM@?B?$AA@"
  """\xC2""" = true.
Proof. vm_compute. reflexivity. Qed.
Example vec_1146 : v_sub 0 "??_C@_01GMMHALAP@?A?$AA@"
  """\xC1""" = true.
Proof. vm_compute. reflexivity. Qed.
Example vec_1147 : v_sub 0 "??_C@_01HFNMDKEO@?$MA?$AA@"
  """\xC0""" = true.
Proof. vm_compute. reflexivity. Qed.
Example vec_1148 : v_sub 0 "??_C@_01NNHLFPHH@?$LP?$AA@"
  """\xBF""" = true.
Proof. vm_compute. reflexivity. Qed.
Example vec_1149 : v_sub 0 "??_C@_01MEGAGODG@?$LO?$AA@"
  """\xBE""" = true.
Proof. vm_compute. reflexivity. Qed.
Example vec_1150 : v_sub 0 "??_C@_01OPENDNPF@?$LN?$AA@"
  """\xBD""" = true.
Proof. vm_compute. reflexivity. Qed.
Example vec_1151 : v_sub 0 "??_C@_01PGFGAMLE@?$LM?$AA@"
  """\xBC""" = true.
Proof. vm_compute. reflexivity. Qed.
Example vec_1152 : v_sub 0 "??_C@_01LJBHJKHD@?$LL?$AA@"
  """\xBB""" = true.
Proof. vm_compute. reflexivity. Qed.
Example vec_1153 : v_sub 0 "??_C@_01KAAMKLDC@?$LK?$AA@"
  """\xBA""" = true.
Proof. vm_compute. reflexivity. Qed.
Example vec_1154 : v_sub 0 "??_C@_01ILCBPIPB@?$LJ?$AA@"
  """\xB9""" = true.
Proof. vm_compute. reflexivity. Qed.
Example vec_1155 : v_sub 0 "??_C@_01JCDKMJLA@?$LI?$AA@"
  """\xB8""" = true.
Proof. vm_compute. reflexivity. Qed.
Example vec_1156 : v_sub 0 "??_C@_01BFKCNFHP@?$LH?$AA@"
  """\xB7""" = true.
Proof. vm_compute. reflexivity. Qed.
Example vec_1157 : v_sub 0 "??_C@_01MLJOEDO@?$LG?$AA@"
  """\xB6""" = true.
Proof. vm_compute. reflexivity. Qed.
Example vec_1158 : v_sub 0 "??_C@_01CHJELHPN@?$LF?$AA@"
  """\xB5""" = true.
Proof. vm_compute. reflexivity. Qed.
Example vec_1159 : v_sub 0 "??_C@_01DOIPIGLM@?$LE?$AA@"
  """\xB4""" = true.
Proof. vm_compute. reflexivity. Qed.
Example vec_1160 : v_sub 0 "??_C@_01HBMOBAHL@?$LD?$AA@"
  """\xB3""" = true.
Proof. vm_compute. reflexivity. Qed.
Example vec_1161 : v_sub 0 "??_C@_01GINFCBDK@?$LC?$AA@"
  """\xB2""" = true.
Proof. vm_compute. reflexivity. Qed.
Example vec_1162 : v_sub 0 "??_C@_01EDPIHCPJ@?$LB?$AA@"
  """\xB1""" = true.
Proof. vm_compute. reflexivity. Qed.
Example vec_1163 : v_sub 0 "??_C@_01FKODEDLI@?$LA?$AA@"
  """\xB0""" = true.
Proof. vm_compute. reflexivity. Qed.
Example vec_1164 : v_sub 0 "??_C@_01JHLJENCG@?$KP?$AA@"
  """\xAF""" = true.
Proof. vm_compute. reflexivity. Qed.
Example vec_1165 : v_sub 0 "??_C@_01IOKCHMGH@?$KO?$AA@"
  """\xAE""" = true.
Proof. vm_compute. reflexivity. Qed.
Example vec_1166 : v_sub 0 "??_C@_01KFIPCPKE@?$KN?$AA@"
  """\xAD""" = true.
Proof. vm_compute. reflexivity. Qed.
Example vec_1167 : v_sub 0 "??_C@_01LMJEBOOF@?$KM?$AA@"
  """\xAC""" = true.
Proof. vm_compute. reflexivity. Qed.
Example vec_1168 : v_sub 0 "??_C@_01PDNFIICC@?$KL?$AA@"
  """\xAB""" = true.
Proof. vm_compute. reflexivity. Qed.
Example vec_1169 : v_sub 0 "??_C@_01OKMOLJGD@?$KK?$AA@"
  """\xAA""" = true.
Proof. vm_compute. reflexivity. Qed.
Example vec_1170 : v_sub 0 "??_C@_01MBODOKKA@?$KJ?$AA@"
  """\xA9""" = true.
Proof. vm_compute. reflexivity. Qed.
Example vec_1171 : v_sub 0 "??_C@_01NIPINLOB@?$KI?$AA@"
  """\xA8""" = true.
Proof. vm_compute. reflexivity. Qed.
Example vec_1172 : v_sub 0 "??_C@_01FPGAMHCO@?$KH?$AA@"
  """\xA7""" = true.
Proof. vm_compute. reflexivity. Qed.
Example vec_1173 : v_sub 0 "??_C@_01EGHLPGGP@?$KG?$AA@"
  """\xA6""" = true.
Proof. vm_compute. reflexivity. Qed.
Example vec_1174 : v_sub 0 "??_C@_01GNFGKFKM@?$KF?$AA@"
  """\xA5""" = true.
Proof. vm_compute. reflexivity. Qed.
Example vec_1175 : v_sub 0 "??_C@_01HEENJEON@?$KE?$AA@"
  """\xA4""" = true.
Proof. vm_compute. reflexivity. Qed.
Example vec_1176 : v_sub 0 "??_C@_01DLAMACCK@?$KD?$AA@"
  """\xA3""" = true.
Proof. vm_compute. reflexivity. Qed.
Example vec_1177 : v_sub 0 "??_C@_01CCBHDDGL@?$KC?$AA@"
  """\xA2""" = true.
Proof. vm_compute. reflexivity. Qed.
Example vec_1178 : v_sub 0 "??_C@_01JDKGAKI@?$KB?$AA@"
  """\xA1""" = true.
Proof. vm_compute. reflexivity. Qed.
Example vec_1179 : v_sub 0 "??_C@_01BACBFBOJ@?$KA?$AA@"
  """\xA0""" = true.
Proof. vm_compute. reflexivity. Qed.
Example vec_1180 : v_sub 0 "??_C@_01EIPPHLNF@?$JP?$AA@"
  """\x9F""" = true.
Proof. vm_compute. reflexivity. Qed.
Example vec_1181 : v_sub 0 "??_C@_01FBOEEKJE@?$JO?$AA@"
  """\x9E""" = true.
Proof. vm_compute. reflexivity. Qed.
Example vec_1182 : v_sub 0 "??_C@_01HKMJBJFH@?$JN?$AA@"
  """\x9D""" = true.
Proof. vm_compute. reflexivity. Qed.
Example vec_1183 : v_sub 0 "??_C@_01GDNCCIBG@?$JM?$AA@"
  """\x9C""" = true.
Proof. vm_compute. reflexivity. Qed.
Example vec_1184 : v_sub 0 "??_C@_01CMJDLONB@?$JL?$AA@"
  """\x9B""" = true.
Proof. vm_compute. reflexivity. Qed.
Example vec_1185 : v_sub 0 "??_C@_01DFIIIPJA@?$JK?$AA@"
  """\x9A""" = true.
Proof. vm_compute. reflexivity. Qed.
Example vec_1186 : v_sub 0 "??_C@_01BOKFNMFD@?$JJ?$AA@"
  """\x99""" = true.
Proof. vm_compute. reflexivity. Qed.
Example vec_1187 : v_sub 0 "??_C@_01HLOONBC@?$JI?$AA@"
  """\x98""" = true.
Proof. vm_compute. reflexivity. Qed.
Example vec_1188 : v_sub 0 "??_C@_01IACGPBNN@?$JH?$AA@"
  """\x97""" = true.
Proof. vm_compute. reflexivity. Qed.
Example vec_1189 : v_sub 0 "??_C@_01JJDNMAJM@?$JG?$AA@"
  """\x96""" = true.
Proof. vm_compute. reflexivity. Qed.
Example vec_1190 : v_sub 0 "??_C@_01LCBAJDFP@?$JF?$AA@"
  """\x95""" = true.
Proof. vm_compute. reflexivity. Qed.
Example vec_1191 : v_sub 0 "??_C@_01KLALKCBO@?$JE?$AA@"
  """\x94""" = true.
Proof. vm_compute. reflexivity. Qed.
Example vec_1192 : v_sub 0 "??_C@_01OEEKDENJ@?$JD?$AA@"
  """\x93""" = true.
Proof. vm_compute. reflexivity. Qed.
Example vec_1193 : v_sub 0 "??_C@_01PNFBAFJI@?$JC?$AA@"
  """\x92""" = true.
Proof. vm_compute. reflexivity. Qed.
Example vec_1194 : v_sub 0 "??_C@_01NGHMFGFL@?$JB?$AA@"
  """\x91""" = true.
Proof. vm_compute. reflexivity. Qed.
Example vec_1195 : v_sub 0 "??_C@_01MPGHGHBK@?$JA?$AA@"
  """\x90""" = true.
Proof. vm_compute. reflexivity. Qed.
Example vec_1196 : v_sub 0 "??_C@_01CDNGJIE@?$IP?$AA@"
  """\x8F""" = true.
Proof. vm_compute. reflexivity. Qed.
Example vec_1197 : v_sub 0 "??_C@_01BLCGFIMF@?$IO?$AA@"
  """\x8E""" = true.
Proof. vm_compute. reflexivity. Qed.
Example vec_1198 : v_sub 0 "??_C@_01DAALALAG@?$IN?$AA@"
  """\x8D""" = true.
Proof. vm_compute. reflexivity. Qed.
Example vec_1199 : v_sub 0 "??_C@_01CJBADKEH@?$IM?$AA@"
  """\x8C""" = true.
Proof. vm_compute. reflexivity. Qed.
Example vec_1200 : v_sub 0 "??_C@_01GGFBKMIA@?$IL?$AA@"
  """\x8B""" = true.
Proof. vm_compute. reflexivity. Qed.
Example vec_1201 : v_sub 0 "??_C@_01HPEKJNMB@?$IK?$AA@"
  """\x8A""" = true.
Proof. vm_compute. reflexivity. Qed.
Example vec_1202 : v_sub 0 "??_C@_01FEGHMOAC@?$IJ?$AA@"
  """\x89""" = true.
Proof. vm_compute. reflexivity. Qed.
Example vec_1203 : v_sub 0 "??_C@_01ENHMPPED@?$II?$AA@"
  """\x88""" = true.
Proof. vm_compute. reflexivity. Qed.
Example vec_1204 : v_sub 0 "??_C@_01MKOEODIM@?$IH?$AA@"
  """\x87""" = true.
Proof. vm_compute. reflexivity. Qed.
Example vec_1205 : v_sub 0 "??_C@_01NDPPNCMN@?$IG?$AA@"
  """\x86""" = true.
Proof. vm_compute. reflexivity. Qed.
Example vec_1206 : v_sub 0 "??_C@_01PINCIBAO@?$IF?$AA@"
  """\x85""" = true.
Proof. vm_compute. reflexivity. Qed.
Example vec_1207 : v_sub 0 "??_C@_01OBMJLAEP@?$IE?$AA@"
  """\x84""" = true.
Proof. vm_compute. reflexivity. Qed.
Example vec_1208 : v_sub 0 "??_C@_01KOIICGII@?$ID?$AA@"
  """\x83""" = true.
Proof. vm_compute. reflexivity. Qed.
Example vec_1209 : v_sub 0 "??_C@_01LHJDBHMJ@?$IC?$AA@"
  """\x82""" = true.
Proof. vm_compute. reflexivity. Qed.
Example vec_1210 : v_sub 0 "??_C@_01JMLOEEAK@?$IB?$AA@"
  """\x81""" = true.
Proof. vm_compute. reflexivity. Qed.
Example vec_1211 : v_sub 0 "??_C@_01IFKFHFEL@?$IA?$AA@"
  """\x80""" = true.
Proof. vm_compute. reflexivity. Qed.
Example vec_1212 : v_sub 0 "??_C@_01BGIBIIDJ@?$HP?$AA@"
  """\x7F""" = true.
Proof. vm_compute. reflexivity. Qed.
Example vec_1213 : v_sub 0 "??_C@_01PJKLJHI@?$HO?$AA@"
  """~""" = true.
Proof. vm_compute. reflexivity. Qed.
Example vec_1214 : v_sub 0 "??_C@_01CELHOKLL@?$HN?$AA@"
  """}""" = true.
Proof. vm_compute. reflexivity. Qed.
Example vec_1215 : v_sub 0 "??_C@_01DNKMNLPK@?$HM?$AA@"
  """|""" = true.
Proof. vm_compute. reflexivity. Qed.
Example vec_1216 : v_sub 0 "??_C@_01HCONENDN@?$HL?$AA@"
  """{""" = true.
Proof. vm_compute. reflexivity. Qed.
Example vec_1217 : v_sub 0 "??_C@_01GLPGHMHM@z?$AA@"
  """z""" = true.
Proof. vm_compute. reflexivity. Qed.
Example vec_1218 : v_sub 0 "??_C@_01EANLCPLP@y?$AA@"
  """y""" = true.
Proof. vm_compute. reflexivity. Qed.
Example vec_1219 : v_sub 0 "??_C@_01FJMABOPO@x?$AA@"
  """x""" = true.
Proof. vm_compute. reflexivity. Qed.
Example vec_1220 : v_sub 0 "??_C@_01NOFIACDB@w?$AA@"
  """w""" = true.
Proof. vm_compute. reflexivity. Qed.
Example vec_1221 : v_sub 0 "??_C@_01MHEDDDHA@v?$AA@"
  """v""" = true.
Proof. vm_compute. reflexivity. Qed.
Example vec_1222 : v_sub 0 "??_C@_01OMGOGALD@u?$AA@"
  """u""" = true.
Proof. vm_compute. reflexivity. Qed.
Example vec_1223 : v_sub 0 "??_C@_01PFHFFBPC@t?$AA@"
  """t""" = true.
Proof. vm_compute. reflexivity. Qed.
Example vec_1224 : v_sub 0 "??_C@_01LKDEMHDF@s?$AA@"
  """s""" = true.
Proof. vm_compute. reflexivity. Qed.
Example vec_1225 : v_sub 0 "??_C@_01KDCPPGHE@r?$AA@"
  """r""" = true.
Proof. vm_compute. reflexivity. Qed.
Example vec_1226 : v_sub 0 "??_C@_01IIACKFLH@q?$AA@"
  """q""" = true.
Proof. vm_compute. reflexivity. Qed.
Example vec_1227 : v_sub 0 "??_C@_01JBBJJEPG@p?$AA@"
  """p""" = true.
Proof. vm_compute. reflexivity. Qed.
Example vec_1228 : v_sub 0 "??_C@_01FMEDJKGI@o?$AA@"
  """o""" = true.
Proof. vm_compute. reflexivity. Qed.
Example vec_1229 : v_sub 0 "??_C@_01EFFIKLCJ@n?$AA@"
  """n""" = true.
Proof. vm_compute. reflexivity. Qed.
Example vec_1230 : v_sub 0 "??_C@_01GOHFPIOK@m?$AA@"
  """m""" = true.
Proof. vm_compute. reflexivity. Qed.
Example vec_1231 : v_sub 0 "??_C@_01HHGOMJKL@l?$AA@"
  """l""" = true.
Proof. vm_compute. reflexivity. Qed.
Example vec_1232 : v_sub 0 "??_C@_01DICPFPGM@k?$AA@"
  """k""" = true.
Proof. vm_compute. reflexivity. Qed.
Example vec_1233 : v_sub 0 "??_C@_01CBDEGOCN@j?$AA@"
  """j""" = true.
Proof. vm_compute. reflexivity. Qed.
Example vec_1234 : v_sub 0 "??_C@_01KBJDNOO@i?$AA@"
  """i""" = true.
Proof. vm_compute. reflexivity. Qed.
Example vec_1235 : v_sub 0 "??_C@_01BDACAMKP@h?$AA@"
  """h""" = true.
Proof. vm_compute. reflexivity. Qed.
Example vec_1236 : v_sub 0 "??_C@_01JEJKBAGA@g?$AA@"
  """g""" = true.
Proof. vm_compute. reflexivity. Qed.
Example vec_1237 : v_sub 0 "??_C@_01INIBCBCB@f?$AA@"
  """f""" = true.
Proof. vm_compute. reflexivity. Qed.
Example vec_1238 : v_sub 0 "??_C@_01KGKMHCOC@e?$AA@"
  """e""" = true.
Proof. vm_compute. reflexivity. Qed.
Example vec_1239 : v_sub 0 "??_C@_01LPLHEDKD@d?$AA@"
  """d""" = true.
Proof. vm_compute. reflexivity. Qed.
Example vec_1240 : v_sub 0 "??_C@_01PAPGNFGE@c?$AA@"
  """c""" = true.
Proof. vm_compute. reflexivity. Qed.
Example vec_1241 : v_sub 0 "??_C@_01OJONOECF@b?$AA@"
  """b""" = true.
Proof. vm_compute. reflexivity. Qed.
Example vec_1242 : v_sub 0 "??_C@_01MCMALHOG@a?$AA@"
  """a""" = true.
Proof. vm_compute. reflexivity. Qed.
Example vec_1243 : v_sub 0 "??_C@_01NLNLIGKH@?$GA?$AA@"
  """`""" = true.
Proof. vm_compute. reflexivity. Qed.
Example vec_1244 : v_sub 0 "??_C@_01IDAFKMJL@_?$AA@"
  """_""" = true.
Proof. vm_compute. reflexivity. Qed.
Example vec_1245 : v_sub 0 "??_C@_01JKBOJNNK@?$FO?$AA@"
  """^""" = true.
Proof. vm_compute. reflexivity. Qed.
Example vec_1246 : v_sub 0 "??_C@_01LBDDMOBJ@?$FN?$AA@"
  """]""" = true.
Proof. vm_compute. reflexivity. Qed.
Example vec_1247 : v_sub 0 "??_C@_01KICIPPFI@?2?$AA@"
  """\\""" = true.
Proof. vm_compute. reflexivity. Qed.
Example vec_1248 : v_sub 0 "??_C@_01OHGJGJJP@?$FL?$AA@"
  """[""" = true.
Proof. vm_compute. reflexivity. Qed.
Example vec_1249 : v_sub 0 "??_C@_01POHCFINO@Z?$AA@"
  """Z""" = true.
Proof. vm_compute. reflexivity. Qed.
Example vec_1250 : v_sub 0 "??_C@_01NFFPALBN@Y?$AA@"
  """Y""" = true.
Proof. vm_compute. reflexivity. Qed.
Example vec_1251 : v_sub 0 "??_C@_01MMEEDKFM@X?$AA@"
  """X""" = true.
Proof. vm_compute. reflexivity. Qed.
Example vec_1252 : v_sub 0 "??_C@_01ELNMCGJD@W?$AA@"
  """W""" = true.
Proof. vm_compute. reflexivity. Qed.
Example vec_1253 : v_sub 0 "??_C@_01FCMHBHNC@V?$AA@"
  """V""" = true.
Proof. vm_compute. reflexivity. Qed.
Example vec_1254 : v_sub 0 "??_C@_01HJOKEEBB@U?$AA@"
  """U""" = true.
Proof. vm_compute. reflexivity. Qed.
Example vec_1255 : v_sub 0 "??_C@_01GAPBHFFA@T?$AA@"
  """T""" = true.
Proof. vm_compute. reflexivity. Qed.
Example vec_1256 : v_sub 0 "??_C@_01CPLAODJH@S?$AA@"
  """S""" = true.
Proof. vm_compute. reflexivity. Qed.
Example vec_1257 : v_sub 0 "??_C@_01DGKLNCNG@R?$AA@"
  """R""" = true.
Proof. vm_compute. reflexivity. Qed.
Example vec_1258 : v_sub 0 "??_C@_01BNIGIBBF@Q?$AA@"
  """Q""" = true.
Proof. vm_compute. reflexivity. Qed.
Example vec_1259 : v_sub 0 "??_C@_01EJNLAFE@P?$AA@"
  """P""" = true.
Proof. vm_compute. reflexivity. Qed.
Example vec_1260 : v_sub 0 "??_C@_01MJMHLOMK@O?$AA@"
  """O""" = true.
Proof. vm_compute. reflexivity. Qed.
Example vec_1261 : v_sub 0 "??_C@_01NANMIPIL@N?$AA@"
  """N""" = true.
Proof. vm_compute. reflexivity. Qed.
Example vec_1262 : v_sub 0 "??_C@_01PLPBNMEI@M?$AA@"
  """M""" = true.
Proof. vm_compute. reflexivity. Qed.
Example vec_1263 : v_sub 0 "??_C@_01OCOKONAJ@L?$AA@"
  """L""" = true.
Proof. vm_compute. reflexivity. Qed.
Example vec_1264 : v_sub 0 "??_C@_01KNKLHLMO@K?$AA@"
  """K""" = true.
Proof. vm_compute. reflexivity. Qed.
Example vec_1265 : v_sub 0 "??_C@_01LELAEKIP@J?$AA@"
  """J""" = true.
Proof. vm_compute. reflexivity. Qed.
Example vec_1266 : v_sub 0 "??_C@_01JPJNBJEM@I?$AA@"
  """I""" = true.
Proof. vm_compute. reflexivity. Qed.
Example vec_1267 : v_sub 0 "??_C@_01IGIGCIAN@H?$AA@"
  """H""" = true.
Proof. vm_compute. reflexivity. Qed.
Example vec_1268 : v_sub 0 "??_C@_01BBODEMC@G?$AA@"
  """G""" = true.
Proof. vm_compute. reflexivity. Qed.
Example vec_1269 : v_sub 0 "??_C@_01BIAFAFID@F?$AA@"
  """F""" = true.
Proof. vm_compute. reflexivity. Qed.
Example vec_1270 : v_sub 0 "??_C@_01DDCIFGEA@E?$AA@"
  """E""" = true.
Proof. vm_compute. reflexivity. Qed.
Example vec_1271 : v_sub 0 "??_C@_01CKDDGHAB@D?$AA@"
  """D""" = true.
Proof. vm_compute. reflexivity. Qed.
Example vec_1272 : v_sub 0 "??_C@_01GFHCPBMG@C?$AA@"
  """C""" = true.
Proof. vm_compute. reflexivity. Qed.
Example vec_1273 : v_sub 0 "??_C@_01HMGJMAIH@B?$AA@"
  """B""" = true.
Proof. vm_compute. reflexivity. Qed.
Example vec_1274 : v_sub 0 "??_C@_01FHEEJDEE@A?$AA@"
  """A""" = true.
Proof. vm_compute. reflexivity. Qed.
Example vec_1275 : v_sub 0 "??_C@_01EOFPKCAF@?$EA?$AA@"
  """@""" = true.
Proof. vm_compute. reflexivity. Qed.
Example vec_1276 : v_sub 0 "??_C@_01OGPIMHDM@?$DP?$AA@"
  """?""" = true.
Proof. vm_compute. reflexivity. Qed.
Example vec_1277 : v_sub 0 "??_C@_01PPODPGHN@?$DO?$AA@"
  """>""" = true.
Proof. vm_compute. reflexivity. Qed.
Example vec_1278 : v_sub 0 "??_C@_01NEMOKFLO@?$DN?$AA@"
  """=""" = true.
Proof. vm_compute. reflexivity. Qed.
Example vec_1279 : v_sub 0 "??_C@_01MNNFJEPP@?$DM?$AA@"
  """<""" = true.
Proof. vm_compute. reflexivity. Qed.
Example vec_1280 : v_sub 0 "??_C@_01ICJEACDI@?$DL?$AA@"
  """;""" = true.
Proof. vm_compute. reflexivity. Qed.
Example vec_1281 : v_sub 0 "??_C@_01JLIPDDHJ@?3?$AA@"
  """:""" = true.
Proof. vm_compute. reflexivity. Qed.
Example vec_1282 : v_sub 0 "??_C@_01LAKCGALK@9?$AA@"
  """9""" = true.
Proof. vm_compute. reflexivity. Qed.
Example vec_1283 : v_sub 0 "??_C@_01KJLJFBPL@8?$AA@"
  """8""" = true.
Proof. vm_compute. reflexivity. Qed.
Example vec_1284 : v_sub 0 "??_C@_01COCBENDE@7?$AA@"
  """7""" = true.
Proof. vm_compute. reflexivity. Qed.
Example vec_1285 : v_sub 0 "??_C@_01DHDKHMHF@6?$AA@"
  """6""" = true.
Proof. vm_compute. reflexivity. Qed.
Example vec_1286 : v_sub 0 "??_C@_01BMBHCPLG@5?$AA@"
  """5""" = true.
Proof. vm_compute. reflexivity. Qed.
Example vec_1287 : v_sub 0 "??_C@_01FAMBOPH@4?$AA@"
  """4""" = true.
Proof. vm_compute. reflexivity. Qed.
Example vec_1288 : v_sub 0 "??_C@_01EKENIIDA@3?$AA@"
  """3""" = true.
Proof. vm_compute. reflexivity. Qed.
Example vec_1289 : v_sub 0 "??_C@_01FDFGLJHB@2?$AA@"
  """2""" = true.
Proof. vm_compute. reflexivity. Qed.
Example vec_1290 : v_sub 0 "??_C@_01HIHLOKLC@1?$AA@"
  """1""" = true.
Proof. vm_compute. reflexivity. Qed.
Example vec_1291 : v_sub 0 "??_C@_01GBGANLPD@0?$AA@"
  """0""" = true.
Proof. vm_compute. reflexivity. Qed.
Example vec_1292 : v_sub 0 "??_C@_01KMDKNFGN@?1?$AA@"
  """/""" = true.
Proof. vm_compute. reflexivity. Qed.
Example vec_1293 : v_sub 0 "??_C@_01LFCBOECM@?4?$AA@"
  """.""" = true.
Proof. vm_compute. reflexivity. Qed.
Example vec_1294 : v_sub 0 "??_C@_01JOAMLHOP@?9?$AA@"
  """-""" = true.
Proof. vm_compute. reflexivity. Qed.
Example vec_1295 : v_sub 0 "??_C@_01IHBHIGKO@?0?$AA@"
  """,""" = true.
Proof. vm_compute. reflexivity. Qed.
Example vec_1296 : v_sub 0 "??_C@_01MIFGBAGJ@?$CL?$AA@"
  """+""" = true.
Proof. vm_compute. reflexivity. Qed.
Example vec_1297 : v_sub 0 "??_C@_01NBENCBCI@?$CK?$AA@"
  """*""" = true.
Proof. vm_compute. reflexivity. Qed.
Example vec_1298 : v_sub 0 "??_C@_01PKGAHCOL@?$CJ?$AA@"
  """)""" = true.
Proof. vm_compute. reflexivity. Qed.
Example vec_1299 : v_sub 0 "??_C@_01ODHLEDKK@?$CI?$AA@"
  """(""" = true.
Proof. vm_compute. reflexivity. Qed.
Example vec_1300 : v_sub 0 "??_C@_01GEODFPGF@?8?$AA@"
  """\'""" = true.
Proof. vm_compute. reflexivity. Qed.
Example vec_1301 : v_sub 0 "??_C@_01HNPIGOCE@?$CG?$AA@"
  """&""" = true.
Proof. vm_compute. reflexivity. Qed.
Example vec_1302 : v_sub 0 "??_C@_01FGNFDNOH@?$CF?$AA@"
  """%""" = true.
Proof. vm_compute. reflexivity. Qed.
Example vec_1303 : v_sub 0 "??_C@_01EPMOAMKG@$?$AA@"
  """$""" = true.
Proof. vm_compute. reflexivity. Qed.
Example vec_1304 : v_sub 0 "??_C@_01IPJKGB@?$CD?$AA@"
  """#""" = true.
Proof. vm_compute. reflexivity. Qed.
Example vec_1305 : v_sub 0 "??_C@_01BJJEKLCA@?$CC?$AA@"
  """\""""" = true.
Proof. vm_compute. reflexivity. Qed.
Example vec_1306 : v_sub 0 "??_C@_01DCLJPIOD@?$CB?$AA@"
  """!""" = true.
Proof. vm_compute. reflexivity. Qed.
Example vec_1307 : v_sub 0 "??_C@_01CLKCMJKC@?5?$AA@"
  """ """ = true.
Proof. vm_compute. reflexivity. Qed.
Example vec_1308 : v_sub 0 "??_C@_01HDHMODJO@?$BP?$AA@"
  """\x1F""" = true.
Proof. vm_compute. reflexivity. Qed.
Example vec_1309 : v_sub 0 "??_C@_01GKGHNCNP@?$BO?$AA@"
  """\x1E""" = true.
Proof. vm_compute. reflexivity. Qed.
Example vec_1310 : v_sub 0 "??_C@_01EBEKIBBM@?$BN?$AA@"
  """\x1D""" = true.
Proof. vm_compute. reflexivity. Qed.
Example vec_1311 : v_sub 0 "??_C@_01FIFBLAFN@?$BM?$AA@"
  """\x1C""" = true.
Proof. vm_compute. reflexivity. Qed.
Example vec_1312 : v_sub 0 "??_C@_01BHBACGJK@?$BL?$AA@"
  """\x1B""" = true.
Proof. vm_compute. reflexivity. Qed.
Example vec_1313 : v_sub 0 "??_C@_01OALBHNL@?$BK?$AA@"
  """\x1A""" = true.
Proof. vm_compute. reflexivity. Qed.
Example vec_1314 : v_sub 0 "??_C@_01CFCGEEBI@?$BJ?$AA@"
  """\x19""" = true.
Proof. vm_compute. reflexivity. Qed.
Example vec_1315 : v_sub 0 "??_C@_01DMDNHFFJ@?$BI?$AA@"
  """\x18""" = true.
Proof. vm_compute. reflexivity. Qed.
Example vec_1316 : v_sub 0 "??_C@_01LLKFGJJG@?$BH?$AA@"
  """\x17""" = true.
Proof. vm_compute. reflexivity. Qed.
Example vec_1317 : v_sub 0 "??_C@_01KCLOFINH@?$BG?$AA@"
  """\x16""" = true.
Proof. vm_compute. reflexivity. Qed.
Example vec_1318 : v_sub 0 "??_C@_01IJJDALBE@?$BF?$AA@"
  """\x15""" = true.
Proof. vm_compute. reflexivity. Qed.
Example vec_1319 : v_sub 0 "??_C@_01JAIIDKFF@?$BE?$AA@"
  """\x14""" = true.
Proof. vm_compute. reflexivity. Qed.
Example vec_1320 : v_sub 0 "??_C@_01NPMJKMJC@?$BD?$AA@"
  """\x13""" = true.
Proof. vm_compute. reflexivity. Qed.
Example vec_1321 : v_sub 0 "??_C@_01MGNCJNND@?$BC?$AA@"
  """\x12""" = true.
Proof. vm_compute. reflexivity. Qed.
Example vec_1322 : v_sub 0 "??_C@_01ONPPMOBA@?$BB?$AA@"
  """\x11""" = true.
Proof. vm_compute. reflexivity. Qed.
Example vec_1323 : v_sub 0 "??_C@_01PEOEPPFB@?$BA?$AA@"
  """\x10""" = true.
Proof. vm_compute. reflexivity. Qed.
Example vec_1324 : v_sub 0 "??_C@_01DJLOPBMP@?$AP?$AA@"
  """\x0F""" = true.
Proof. vm_compute. reflexivity. Qed.
Example vec_1325 : v_sub 0 "??_C@_01CAKFMAIO@?$AO?$AA@"
  """\x0E""" = true.
Proof. vm_compute. reflexivity. Qed.
Example vec_1326 : v_sub 0 "??_C@_01LIIJDEN@?$AN?$AA@"
  """\r""" = true.
Proof. vm_compute. reflexivity. Qed.
Example vec_1327 : v_sub 0 "??_C@_01BCJDKCAM@?$AM?$AA@"
  """\f""" = true.
Proof. vm_compute. reflexivity. Qed.
Example vec_1328 : v_sub 0 "??_C@_01FNNCDEML@?$AL?$AA@"
  """\v""" = true.
Proof. vm_compute. reflexivity. Qed.
Example vec_1329 : v_sub 0 "??_C@_01EEMJAFIK@?6?$AA@"
  """\n""" = true.
Proof. vm_compute. reflexivity. Qed.
Example vec_1330 : v_sub 0 "??_C@_01GPOEFGEJ@?7?$AA@"
  """\t""" = true.
Proof. vm_compute. reflexivity. Qed.
Example vec_1331 : v_sub 0 "??_C@_01HGPPGHAI@?$AI?$AA@"
  """\b""" = true.
Proof. vm_compute. reflexivity. Qed.
Example vec_1332 : v_sub 0 "??_C@_01PBGHHLMH@?$AH?$AA@"
  """\a""" = true.
Proof. vm_compute. reflexivity. Qed.
Example vec_1333 : v_sub 0 "??_C@_01OIHMEKIG@?$AG?$AA@"
  """\x06""" = true.
Proof. vm_compute. reflexivity. Qed.
Example vec_1334 : v_sub 0 "??_C@_01MDFBBJEF@?$AF?$AA@"
  """\x05""" = true.
Proof. vm_compute. reflexivity. Qed.
Example vec_1335 : v_sub 0 "??_C@_01NKEKCIAE@?$AE?$AA@"
  """\x04""" = true.
Proof. vm_compute. reflexivity. Qed.
Example vec_1336 : v_sub 0 "??_C@_01JFALLOMD@?$AD?$AA@"
  """\x03""" = true.
Proof. vm_compute. reflexivity. Qed.
Example vec_1337 : v_sub 0 "??_C@_01IMBAIPIC@?$AC?$AA@"
  """\x02""" = true.
Proof. vm_compute. reflexivity. Qed.
Example vec_1338 : v_sub 0 "??_C@_01KHDNNMEB@?$AB?$AA@"
  """\x01""" = true.
Proof. vm_compute. reflexivity. Qed.
Example vec_1339 : v_sub 0 "??_C@_01LOCGONAA@?$AA?$AA@"
  "u""""" = true.
Proof. vm_compute. reflexivity. Qed.
Example vec_1340 : v_sub 0 "??_C@_13KDLDGPGJ@?$AA?7?$AA?$AA@"
  """\t""" = true.
Proof. vm_compute. reflexivity. Qed.
Example vec_1341 : v_sub 0 "??_C@_13LBAGMAIH@?$AA?6?$AA?$AA@"
  """\n""" = true.
Proof. vm_compute. reflexivity. Qed.
Example vec_1342 : v_sub 0 "??_C@_13JLKKHOC@?$AA?$AL?$AA?$AA@"
  """\v""" = true.
Proof. vm_compute. reflexivity. Qed.
Example vec_1343 : v_sub 0 "??_C@_13HOIJIPNN@?$AA?5?$AA?$AA@"
  """ """ = true.
Proof. vm_compute. reflexivity. Qed.
Example vec_1344 : v_sub 0 "??_C@_13MGDFOILI@?$AA?$CB?$AA?$AA@"
  """!""" = true.
Proof. vm_compute. reflexivity. Qed.
Example vec_1345 : v_sub 0 "??_C@_13NEIAEHFG@?$AA?$CC?$AA?$AA@"
  """\""""" = true.
Proof. vm_compute. reflexivity. Qed.
Example vec_1346 : v_sub 0 "??_C@_13GMDMCADD@?$AA?$CD?$AA?$AA@"
  """#""" = true.
Proof. vm_compute. reflexivity. Qed.
Example vec_1347 : v_sub 0 "??_C@_13PBOLBIIK@?$AA$?$AA?$AA@"
  """$""" = true.
Proof. vm_compute. reflexivity. Qed.
Example vec_1348 : v_sub 0 "??_C@_13EJFHHPOP@?$AA?$CF?$AA?$AA@"
  """%""" = true.
Proof. vm_compute. reflexivity. Qed.
Example vec_1349 : v_sub 0 "??_C@_13FLOCNAAB@?$AA?$CG?$AA?$AA@"
  """&""" = true.
Proof. vm_compute. reflexivity. Qed.
Example vec_1350 : v_sub 0 "??_C@_13ODFOLHGE@?$AA?8?$AA?$AA@"
  """\'""" = true.
Proof. vm_compute. reflexivity. Qed.
Example vec_1351 : v_sub 0 "??_C@_13LLDNKHDC@?$AA?$CI?$AA?$AA@"
  """(""" = true.
Proof. vm_compute. reflexivity. Qed.
Example vec_1352 : v_sub 0 "??_C@_13DIBMAFH@?$AA?$CJ?$AA?$AA@"
  """)""" = true.
Proof. vm_compute. reflexivity. Qed.
Example vec_1353 : v_sub 0 "??_C@_13BBDEGPLJ@?$AA?$CK?$AA?$AA@"
  """*""" = true.
Proof. vm_compute. reflexivity. Qed.
Example vec_1354 : v_sub 0 "??_C@_13KJIIAINM@?$AA?$CL?$AA?$AA@"
  """+""" = true.
Proof. vm_compute. reflexivity. Qed.
Example vec_1355 : v_sub 0 "??_C@_13DEFPDAGF@?$AA?0?$AA?$AA@"
  """,""" = true.
Proof. vm_compute. reflexivity. Qed.
Example vec_1356 : v_sub 0 "??_C@_13IMODFHAA@?$AA?9?$AA?$AA@"
  """-""" = true.
Proof. vm_compute. reflexivity. Qed.
Example vec_1357 : v_sub 0 "??_C@_13JOFGPIOO@?$AA?4?$AA?$AA@"
  """.""" = true.
Proof. vm_compute. reflexivity. Qed.
Example vec_1358 : v_sub 0 "??_C@_13CGOKJPIL@?$AA?1?$AA?$AA@"
  """/""" = true.
Proof. vm_compute. reflexivity. Qed.
Example vec_1359 : v_sub 0 "??_C@_13COJANIEC@?$AA0?$AA?$AA@"
  """0""" = true.
Proof. vm_compute. reflexivity. Qed.
Example vec_1360 : v_sub 0 "??_C@_13JGCMLPCH@?$AA1?$AA?$AA@"
  """1""" = true.
Proof. vm_compute. reflexivity. Qed.
Example vec_1361 : v_sub 0 "??_C@_13IEJJBAMJ@?$AA2?$AA?$AA@"
  """2""" = true.
Proof. vm_compute. reflexivity. Qed.
Example vec_1362 : v_sub 0 "??_C@_13DMCFHHKM@?$AA3?$AA?$AA@"
  """3""" = true.
Proof. vm_compute. reflexivity. Qed.
Example vec_1363 : v_sub 0 "??_C@_13KBPCEPBF@?$AA4?$AA?$AA@"
  """4""" = true.
Proof. vm_compute. reflexivity. Qed.
Example vec_1364 : v_sub 0 "??_C@_13BJEOCIHA@?$AA5?$AA?$AA@"
  """5""" = true.
Proof. vm_compute. reflexivity. Qed.
Example vec_1365 : v_sub 0 "??_C@_13LPLIHJO@?$AA6?$AA?$AA@"
  """6""" = true.
Proof. vm_compute. reflexivity. Qed.
Example vec_1366 : v_sub 0 "??_C@_13LDEHOAPL@?$AA7?$AA?$AA@"
  """7""" = true.
Proof. vm_compute. reflexivity. Qed.
Example vec_1367 : v_sub 0 "??_C@_13OLCEPAKN@?$AA8?$AA?$AA@"
  """8""" = true.
Proof. vm_compute. reflexivity. Qed.
Example vec_1368 : v_sub 0 "??_C@_13FDJIJHMI@?$AA9?$AA?$AA@"
  """9""" = true.
Proof. vm_compute. reflexivity. Qed.
Example vec_1369 : v_sub 0 "??_C@_13EBCNDICG@?$AA?3?$AA?$AA@"
  """:""" = true.
Proof. vm_compute. reflexivity. Qed.
Example vec_1370 : v_sub 0 "??_C@_13PJJBFPED@?$AA?$DL?$AA?$AA@"
  """;""" = true.
Proof. vm_compute. reflexivity. Qed.
Example vec_1371 : v_sub 0 "??_C@_13GEEGGHPK@?$AA?$DM?$AA?$AA@"
  """<""" = true.
Proof. vm_compute. reflexivity. Qed.
Example vec_1372 : v_sub 0 "??_C@_13NMPKAAJP@?$AA?$DN?$AA?$AA@"
  """=""" = true.
Proof. vm_compute. reflexivity. Qed.
Example vec_1373 : v_sub 0 "??_C@_13MOEPKPHB@?$AA?$DO?$AA?$AA@"
  """>""" = true.
Proof. vm_compute. reflexivity. Qed.
Example vec_1374 : v_sub 0 "??_C@_13HGPDMIBE@?$AA?$DP?$AA?$AA@"
  """?""" = true.
Proof. vm_compute. reflexivity. Qed.
Example vec_1375 : v_sub 0 "??_C@_13EFKPHINO@?$AA?$EA?$AA?$AA@"
  """@""" = true.
Proof. vm_compute. reflexivity. Qed.
Example vec_1376 : v_sub 0 "??_C@_13PNBDBPLL@?$AAA?$AA?$AA@"
  """A""" = true.
Proof. vm_compute. reflexivity. Qed.
Example vec_1377 : v_sub 0 "??_C@_13OPKGLAFF@?$AAB?$AA?$AA@"
  """B""" = true.
Proof. vm_compute. reflexivity. Qed.
Example vec_1378 : v_sub 0 "??_C@_13FHBKNHDA@?$AAC?$AA?$AA@"
  """C""" = true.
Proof. vm_compute. reflexivity. Qed.
Example vec_1379 : v_sub 0 "??_C@_13MKMNOPIJ@?$AAD?$AA?$AA@"
  """D""" = true.
Proof. vm_compute. reflexivity. Qed.
Example vec_1380 : v_sub 0 "??_C@_13HCHBIIOM@?$AAE?$AA?$AA@"
  """E""" = true.
Proof. vm_compute. reflexivity. Qed.
Example vec_1381 : v_sub 0 "??_C@_13GAMECHAC@?$AAF?$AA?$AA@"
  """F""" = true.
Proof. vm_compute. reflexivity. Qed.
Example vec_1382 : v_sub 0 "??_C@_13NIHIEAGH@?$AAG?$AA?$AA@"
  """G""" = true.
Proof. vm_compute. reflexivity. Qed.
Example vec_1383 : v_sub 0 "??_C@_13IABLFADB@?$AAH?$AA?$AA@"
  """H""" = true.
Proof. vm_compute. reflexivity. Qed.
Example vec_1384 : v_sub 0 "??_C@_13DIKHDHFE@?$AAI?$AA?$AA@"
  """I""" = true.
Proof. vm_compute. reflexivity. Qed.
Example vec_1385 : v_sub 0 "??_C@_13CKBCJILK@?$AAJ?$AA?$AA@"
  """J""" = true.
Proof. vm_compute. reflexivity. Qed.
Example vec_1386 : v_sub 0 "??_C@_13JCKOPPNP@?$AAK?$AA?$AA@"
  """K""" = true.
Proof. vm_compute. reflexivity. Qed.
Example vec_1387 : v_sub 0 "??_C@_13PHJMHGG@?$AAL?$AA?$AA@"
  """L""" = true.
Proof. vm_compute. reflexivity. Qed.
Example vec_1388 : v_sub 0 "??_C@_13LHMFKAAD@?$AAM?$AA?$AA@"
  """M""" = true.
Proof. vm_compute. reflexivity. Qed.
Example vec_1389 : v_sub 0 "??_C@_13KFHAAPON@?$AAN?$AA?$AA@"
  """N""" = true.
Proof. vm_compute. reflexivity. Qed.
Example vec_1390 : v_sub 0 "??_C@_13BNMMGIII@?$AAO?$AA?$AA@"
  """O""" = true.
Proof. vm_compute. reflexivity. Qed.
Example vec_1391 : v_sub 0 "??_C@_13BFLGCPEB@?$AAP?$AA?$AA@"
  """P""" = true.
Proof. vm_compute. reflexivity. Qed.
Example vec_1392 : v_sub 0 "??_C@_13KNAKEICE@?$AAQ?$AA?$AA@"
  """Q""" = true.
Proof. vm_compute. reflexivity. Qed.
Example vec_1393 : v_sub 0 "??_C@_13LPLPOHMK@?$AAR?$AA?$AA@"
  """R""" = true.
Proof. vm_compute. reflexivity. Qed.
Example vec_1394 : v_sub 0 "??_C@_13HADIAKP@?$AAS?$AA?$AA@"
  """S""" = true.
Proof. vm_compute. reflexivity. Qed.
Example vec_1395 : v_sub 0 "??_C@_13JKNELIBG@?$AAT?$AA?$AA@"
  """T""" = true.
Proof. vm_compute. reflexivity. Qed.
Example vec_1396 : v_sub 0 "??_C@_13CCGINPHD@?$AAU?$AA?$AA@"
  """U""" = true.
Proof. vm_compute. reflexivity. Qed.
Example vec_1397 : v_sub 0 "??_C@_13DANNHAJN@?$AAV?$AA?$AA@"
  """V""" = true.
Proof. vm_compute. reflexivity. Qed.
Example vec_1398 : v_sub 0 "??_C@_13IIGBBHPI@?$AAW?$AA?$AA@"
  """W""" = true.
Proof. vm_compute. reflexivity. Qed.
Example vec_1399 : v_sub 0 "??_C@_13NAACAHKO@?$AAX?$AA?$AA@"
  """X""" = true.
Proof. vm_compute. reflexivity. Qed.
Example vec_1400 : v_sub 0 "??_C@_13GILOGAML@?$AAY?$AA?$AA@"
  """Y""" = true.
Proof. vm_compute. reflexivity. Qed.
Example vec_1401 : v_sub 0 "??_C@_13HKALMPCF@?$AAZ?$AA?$AA@"
  """Z""" = true.
Proof. vm_compute. reflexivity. Qed.
Example vec_1402 : v_sub 0 "??_C@_13MCLHKIEA@?$AA?$FL?$AA?$AA@"
  """[""" = true.
Proof. vm_compute. reflexivity. Qed.
Example vec_1403 : v_sub 0 "??_C@_13FPGAJAPJ@?$AA?2?$AA?$AA@"
  """\\""" = true.
Proof. vm_compute. reflexivity. Qed.
Example vec_1404 : v_sub 0 "??_C@_13OHNMPHJM@?$AA?$FN?$AA?$AA@"
  """]""" = true.
Proof. vm_compute. reflexivity. Qed.
Example vec_1405 : v_sub 0 "??_C@_13PFGJFIHC@?$AA?$FO?$AA?$AA@"
  """^""" = true.
Proof. vm_compute. reflexivity. Qed.
Example vec_1406 : v_sub 0 "??_C@_13ENNFDPBH@?$AA_?$AA?$AA@"
  """_""" = true.
Proof. vm_compute. reflexivity. Qed.
Example vec_1407 : v_sub 0 "??_C@_13OFJNNHOA@?$AA?$GA?$AA?$AA@"
  """`""" = true.
Proof. vm_compute. reflexivity. Qed.
Example vec_1408 : v_sub 0 "??_C@_13FNCBLAIF@?$AAa?$AA?$AA@"
  """a""" = true.
Proof. vm_compute. reflexivity. Qed.
Example vec_1409 : v_sub 0 "??_C@_13EPJEBPGL@?$AAb?$AA?$AA@"
  """b""" = true.
Proof. vm_compute. reflexivity. Qed.
Example vec_1410 : v_sub 0 "??_C@_13PHCIHIAO@?$AAc?$AA?$AA@"
  """c""" = true.
Proof. vm_compute. reflexivity. Qed.
Example vec_1411 : v_sub 0 "??_C@_13GKPPEALH@?$AAd?$AA?$AA@"
  """d""" = true.
Proof. vm_compute. reflexivity. Qed.
Example vec_1412 : v_sub 0 "??_C@_13NCEDCHNC@?$AAe?$AA?$AA@"
  """e""" = true.
Proof. vm_compute. reflexivity. Qed.
Example vec_1413 : v_sub 0 "??_C@_13MAPGIIDM@?$AAf?$AA?$AA@"
  """f""" = true.
Proof. vm_compute. reflexivity. Qed.
Example vec_1414 : v_sub 0 "??_C@_13HIEKOPFJ@?$AAg?$AA?$AA@"
  """g""" = true.
Proof. vm_compute. reflexivity. Qed.
Example vec_1415 : v_sub 0 "??_C@_13CACJPPAP@?$AAh?$AA?$AA@"
  """h""" = true.
Proof. vm_compute. reflexivity. Qed.
Example vec_1416 : v_sub 0 "??_C@_13JIJFJIGK@?$AAi?$AA?$AA@"
  """i""" = true.
Proof. vm_compute. reflexivity. Qed.
Example vec_1417 : v_sub 0 "??_C@_13IKCADHIE@?$AAj?$AA?$AA@"
  """j""" = true.
Proof. vm_compute. reflexivity. Qed.
Example vec_1418 : v_sub 0 "??_C@_13DCJMFAOB@?$AAk?$AA?$AA@"
  """k""" = true.
Proof. vm_compute. reflexivity. Qed.
Example vec_1419 : v_sub 0 "??_C@_13KPELGIFI@?$AAl?$AA?$AA@"
  """l""" = true.
Proof. vm_compute. reflexivity. Qed.
Example vec_1420 : v_sub 0 "??_C@_13BHPHAPDN@?$AAm?$AA?$AA@"
  """m""" = true.
Proof. vm_compute. reflexivity. Qed.
Example vec_1421 : v_sub 0 "??_C@_13FECKAND@?$AAn?$AA?$AA@"
  """n""" = true.
Proof. vm_compute. reflexivity. Qed.
Example vec_1422 : v_sub 0 "??_C@_13LNPOMHLG@?$AAo?$AA?$AA@"
  """o""" = true.
Proof. vm_compute. reflexivity. Qed.
Example vec_1423 : v_sub 0 "??_C@_13LFIEIAHP@?$AAp?$AA?$AA@"
  """p""" = true.
Proof. vm_compute. reflexivity. Qed.
Example vec_1424 : v_sub 0 "??_C@_13NDIOHBK@?$AAq?$AA?$AA@"
  """q""" = true.
Proof. vm_compute. reflexivity. Qed.
Example vec_1425 : v_sub 0 "??_C@_13BPINEIPE@?$AAr?$AA?$AA@"
  """r""" = true.
Proof. vm_compute. reflexivity. Qed.
Example vec_1426 : v_sub 0 "??_C@_13KHDBCPJB@?$AAs?$AA?$AA@"
  """s""" = true.
Proof. vm_compute. reflexivity. Qed.
Example vec_1427 : v_sub 0 "??_C@_13DKOGBHCI@?$AAt?$AA?$AA@"
  """t""" = true.
Proof. vm_compute. reflexivity. Qed.
Example vec_1428 : v_sub 0 "??_C@_13ICFKHAEN@?$AAu?$AA?$AA@"
  """u""" = true.
Proof. vm_compute. reflexivity. Qed.
Example vec_1429 : v_sub 0 "??_C@_13JAOPNPKD@?$AAv?$AA?$AA@"
  """v""" = true.
Proof. vm_compute. reflexivity. Qed.
Example vec_1430 : v_sub 0 "??_C@_13CIFDLIMG@?$AAw?$AA?$AA@"
  """w""" = true.
Proof. vm_compute. reflexivity. Qed.
Example vec_1431 : v_sub 0 "??_C@_13HADAKIJA@?$AAx?$AA?$AA@"
  """x""" = true.
Proof. vm_compute. reflexivity. Qed.
Example vec_1432 : v_sub 0 "??_C@_13MIIMMPPF@?$AAy?$AA?$AA@"
  """y""" = true.
Proof. vm_compute. reflexivity. Qed.
Example vec_1433 : v_sub 0 "??_C@_13NKDJGABL@?$AAz?$AA?$AA@"
  """z""" = true.
Proof. vm_compute. reflexivity. Qed.
Example vec_1434 : v_sub 0 "??_C@_13GCIFAHHO@?$AA?$HL?$AA?$AA@"
  """{""" = true.
Proof. vm_compute. reflexivity. Qed.
Example vec_1435 : v_sub 0 "??_C@_13PPFCDPMH@?$AA?$HM?$AA?$AA@"
  """|""" = true.
Proof. vm_compute. reflexivity. Qed.
Example vec_1436 : v_sub 0 "??_C@_13EHOOFIKC@?$AA?$HN?$AA?$AA@"
  """}""" = true.
Proof. vm_compute. reflexivity. Qed.
Example vec_1437 : v_sub 0 "??_C@_13FFFLPHEM@?$AA?$HO?$AA?$AA@"
  """~""" = true.
Proof. vm_compute. reflexivity. Qed.
