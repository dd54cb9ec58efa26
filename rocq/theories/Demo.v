(** A small table group used by the concrete examples beside the theorems. *)
From Verif Require Export ModelParser.

Definition demo_b (u : unit_t) (scale refval nbits : Z) : bentry :=
  mkBentry [] [] u scale refval nbits [] NUMERIC 0 0.
Definition demo_group : group := GSingle (mkSingle
  (assoc_get [(1001, demo_b NUMERIC 0 0 7); (1002, demo_b NUMERIC 0 0 10);
              (1015, demo_b STRING 0 0 32); (4001, demo_b NUMERIC 0 0 12);
              (8002, demo_b NONNEG_CODE 0 0 6); (8023, demo_b NONNEG_CODE 0 0 6);
              (12101, demo_b NUMERIC 2 0 16); (20011, demo_b NONNEG_CODE 0 0 4);
              (31000, demo_b NUMERIC 0 0 1); (31001, demo_b NUMERIC 0 0 8);
              (31021, demo_b NONNEG_CODE 0 0 6); (31031, demo_b NONNEG_CODE 0 0 1);
              (33007, demo_b NUMERIC 0 0 7)])
  (assoc_get [(301001, [1001; 1002]); (301011, [4001; 4001]);
              (302001, [301001; 301011; 102002; 12101; 20011]);
              (309999, [309999; 1001])])).
