(** * ModelAuto3: the convolution test of the harness
      (/repo/auto_test/test_code/conv_test.h:135-210)

    Simplifications: as in ModelAuto.  The test passes the user's function 7 arguments
    (conv_test.h:184-185), the registered wrapper takes 10 (conv_test.h:218-221), so the
    file does not compile once registered; modelled is the test with the lengths filled
    in.  How the user's function is called is part of the arbitrary [U]. *)
From stdpp Require Import gmap list.
From Coq Require Import ZArith Floats.SpecFloat.
From Verif Require Import Base Mem ModelCore ModelNN ModelSample ModelAuto.
Open Scope Z_scope.

(** The library's operation, conv_test.h:165-166 *)
Definition conv_op (stride padding dilation : list Z) (groups : Z) (a1 a2 o : hval) : M (status * hval) :=
  aitisa_conv2d a1 a2 stride padding dilation groups o.
(** One sample, conv_test.h:141-207: the result must be on CUDA and is compared as
    float whatever the operands' types. *)
Definition conv_case {X} (U : user X) (x1 x2 : operand) (stride padding dilation : list Z) (groups : Z) : M bool :=
  auto_case (conv_op stride padding dilation groups) U x1 x2 (Some 1) F32 (same_float F32).
