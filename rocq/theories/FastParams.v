(** Montgomery parameters of the two moduli of the development.  Generated
    data; [mp_ok] checks it. *)
From Coq Require Import ZArith List Uint63.
From Verif Require Import Params FastMod.
Import ListNotations.
Open Scope Z_scope.
Definition MPp : MP := mkMP 4002409555221667393417789825735904156556882819939007885332058136124031650490837864442687629129015664037894272559787 14 [268413611%uint63; 267386879%uint63; 67108793%uint63; 268430101%uint63; 103030443%uint63; 168782607%uint63; 258420946%uint63; 255349035%uint63; 74926980%uint63; 79351158%uint63; 195540547%uint63; 241804465%uint63; 32127359%uint63; 106513%uint63] 268238845%uint63 [17002733%uint63; 114410309%uint63; 237256034%uint63; 247749715%uint63; 61986394%uint63; 9646461%uint63; 189740704%uint63; 97992840%uint63; 202435186%uint63; 140890392%uint63; 120719989%uint63; 265669968%uint63; 214476633%uint63; 51412%uint63] 2514128865546716520952785953976253554081406324674822213899145074122859742170541280619393841074214235878037313279475 [1341478240%uint63; 1308622843%uint63; 1342175035%uint63; 1342005923%uint63; 1149490555%uint63; 1106076136%uint63; 1290148432%uint63; 1191847290%uint63; 1323921562%uint63; 1197059780%uint63; 1157023845%uint63; 1295291955%uint63; 1296510968%uint63; 3408415%uint63].
Lemma MPp_ok : mp_ok MPp = true. Proof. vm_cast_no_check (eq_refl true). Qed.
Definition MPr : MP := mkMP 21888242871839275222246405745257275088548364400416034343698204186575808495617 10 [1%uint63; 236935487%uint63; 158372163%uint63; 243566491%uint63; 140322867%uint63; 191371285%uint63; 163074117%uint63; 236132866%uint63; 6573682%uint63; 3%uint63] 268435455%uint63 [256820916%uint63; 162711927%uint63; 145387775%uint63; 143082171%uint63; 182582518%uint63; 267729075%uint63; 200490400%uint63; 169712040%uint63; 172336550%uint63; 0%uint63] 6746124075724821004311891360752420604117147814297447549305999748580747412046 [1074790400%uint63; 1139802108%uint63; 1144921941%uint63; 1236889741%uint63; 1128170627%uint63; 1096310052%uint63; 1146841108%uint63; 1076475980%uint63; 1194201878%uint63; 3171402%uint63].
Lemma MPr_ok : mp_ok MPr = true. Proof. vm_cast_no_check (eq_refl true). Qed.
