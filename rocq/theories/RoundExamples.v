(** Two rounds used by the examples: one made up to contain every kind of event, and
    one from /repo/MahjongAI/data/sample/sample_haifu.xml (its 15th round; attributes
    the code does not read are left out). *)
From Coq Require Import ZArith List String.
From Verif Require Import Base Process.
Import ListNotations.
Local Open Scope string_scope.

(** Libraries that never see a win and always see tenpai. *)
Definition ex_libs : libs := MkLibs (fun _ => Ok false) (fun _ => Ok 0%Z).

Definition small_round : list event :=
 [MkEvent "INIT" [("seed","0,0,1,2,3,132"); ("ten","250,240,250,250"); ("oya","0"); ("hai0","0,1,2,16,20,24,36,40,44,110,112,116,120"); ("hai1","108,109,37,41,45,49,53,57,61,65,69,73,77"); ("hai2","72,76,80,84,88,92,96,100,104,4,8,12,113"); ("hai3","5,9,13,17,21,25,29,33,38,42,46,50,54")];
 MkEvent "T3" [];
 MkEvent "N" [("who","0"); ("m","768")];
 MkEvent "DORA" [("hai","52")];
 MkEvent "T124" [];
 MkEvent "D110" [];
 MkEvent "N" [("who","1"); ("m","42603")];
 MkEvent "E77" [];
 MkEvent "V117" [];
 MkEvent "REACH" [("who","2"); ("step","1")];
 MkEvent "F117" [];
 MkEvent "REACH" [("who","2"); ("step","2")];
 MkEvent "W125" [];
 MkEvent "G125" [];
 MkEvent "T126" [];
 MkEvent "D126" [];
 MkEvent "U111" [];
 MkEvent "N" [("who","1"); ("m","42611")];
 MkEvent "U121" [];
 MkEvent "DORA" [("hai","133")];
 MkEvent "E121" [];
 MkEvent "V118" [];
 MkEvent "F118" [];
 MkEvent "RYUUKYOKU" [("sc","0,0,0,0")]].

Definition real_round : list event :=
 [MkEvent "INIT" [("seed","6,3,1,4,1,70"); ("ten","461,248,162,119"); ("oya","2"); ("hai0","124,1,54,46,23,96,47,105,28,4,99,56,53"); ("hai1","14,66,55,126,40,43,100,121,29,65,68,114,74"); ("hai2","24,30,97,83,130,71,59,132,13,36,76,15,87"); ("hai3","84,35,57,80,52,101,116,122,98,34,125,86,117")];
 MkEvent "V128" [];
 MkEvent "F71" [];
 MkEvent "W8" [];
 MkEvent "G122" [];
 MkEvent "T92" [];
 MkEvent "D4" [];
 MkEvent "U131" [];
 MkEvent "E74" [];
 MkEvent "V127" [];
 MkEvent "F127" [];
 MkEvent "W106" [];
 MkEvent "G125" [];
 MkEvent "T120" [];
 MkEvent "D1" [];
 MkEvent "U115" [];
 MkEvent "E126" [];
 MkEvent "V107" [];
 MkEvent "F59" [];
 MkEvent "W119" [];
 MkEvent "G8" [];
 MkEvent "T26" [];
 MkEvent "D105" [];
 MkEvent "U123" [];
 MkEvent "E100" [];
 MkEvent "N" [("who","2"); ("m","62863")];
 MkEvent "F36" [];
 MkEvent "W75" [];
 MkEvent "G75" [];
 MkEvent "T89" [];
 MkEvent "D120" [];
 MkEvent "N" [("who","1"); ("m","46155")];
 MkEvent "E29" [];
 MkEvent "V93" [];
 MkEvent "F132" [];
 MkEvent "W45" [];
 MkEvent "G45" [];
 MkEvent "N" [("who","0"); ("m","16907")];
 MkEvent "D124" [];
 MkEvent "U6" [];
 MkEvent "E6" [];
 MkEvent "V95" [];
 MkEvent "F13" [];
 MkEvent "W134" [];
 MkEvent "G134" [];
 MkEvent "T103" [];
 MkEvent "D103" [];
 MkEvent "U16" [];
 MkEvent "E131" [];
 MkEvent "N" [("who","2"); ("m","50219")];
 MkEvent "F15" [];
 MkEvent "W51" [];
 MkEvent "REACH" [("who","3"); ("step","1")];
 MkEvent "G86" [];
 MkEvent "REACH" [("who","3"); ("ten","461,248,162,109"); ("step","2")];
 MkEvent "N" [("who","0"); ("m","52279")];
 MkEvent "D54" [];
 MkEvent "U72" [];
 MkEvent "E55" [];
 MkEvent "V94" [];
 MkEvent "F94" [];
 MkEvent "W102" [];
 MkEvent "G102" [];
 MkEvent "T104" [];
 MkEvent "D104" [];
 MkEvent "U2" [];
 MkEvent "E72" [];
 MkEvent "V41" [];
 MkEvent "F41" [];
 MkEvent "W91" [];
 MkEvent "AGARI" [("hai","34,35,51,52,57,80,84,91,98,101,106,116,117,119"); ("ten","30,7900,0"); ("who","3"); ("sc","461,-23,248,-23,162,-42,109,108")]].

(** Made up: nobody claims anything and every drawn tile is discarded until the wall is empty. *)
Definition exhausted_round : list event :=
 [MkEvent "INIT" [("seed","0,0,0,2,3,132"); ("ten","250,250,250,250"); ("oya","0"); ("hai0","0,4,8,12,16,20,24,28,32,36,40,44,48"); ("hai1","1,5,9,13,17,21,25,29,33,37,41,45,49"); ("hai2","2,6,10,14,18,22,26,30,34,38,42,46,50"); ("hai3","3,7,11,15,19,23,27,31,35,39,43,47,51")];
 MkEvent "T52" []; MkEvent "D52" [];
 MkEvent "U53" []; MkEvent "E53" [];
 MkEvent "V54" []; MkEvent "F54" [];
 MkEvent "W55" []; MkEvent "G55" [];
 MkEvent "T56" []; MkEvent "D56" [];
 MkEvent "U57" []; MkEvent "E57" [];
 MkEvent "V58" []; MkEvent "F58" [];
 MkEvent "W59" []; MkEvent "G59" [];
 MkEvent "T60" []; MkEvent "D60" [];
 MkEvent "U61" []; MkEvent "E61" [];
 MkEvent "V62" []; MkEvent "F62" [];
 MkEvent "W63" []; MkEvent "G63" [];
 MkEvent "T64" []; MkEvent "D64" [];
 MkEvent "U65" []; MkEvent "E65" [];
 MkEvent "V66" []; MkEvent "F66" [];
 MkEvent "W67" []; MkEvent "G67" [];
 MkEvent "T68" []; MkEvent "D68" [];
 MkEvent "U69" []; MkEvent "E69" [];
 MkEvent "V70" []; MkEvent "F70" [];
 MkEvent "W71" []; MkEvent "G71" [];
 MkEvent "T72" []; MkEvent "D72" [];
 MkEvent "U73" []; MkEvent "E73" [];
 MkEvent "V74" []; MkEvent "F74" [];
 MkEvent "W75" []; MkEvent "G75" [];
 MkEvent "T76" []; MkEvent "D76" [];
 MkEvent "U77" []; MkEvent "E77" [];
 MkEvent "V78" []; MkEvent "F78" [];
 MkEvent "W79" []; MkEvent "G79" [];
 MkEvent "T80" []; MkEvent "D80" [];
 MkEvent "U81" []; MkEvent "E81" [];
 MkEvent "V82" []; MkEvent "F82" [];
 MkEvent "W83" []; MkEvent "G83" [];
 MkEvent "T84" []; MkEvent "D84" [];
 MkEvent "U85" []; MkEvent "E85" [];
 MkEvent "V86" []; MkEvent "F86" [];
 MkEvent "W87" []; MkEvent "G87" [];
 MkEvent "T88" []; MkEvent "D88" [];
 MkEvent "U89" []; MkEvent "E89" [];
 MkEvent "V90" []; MkEvent "F90" [];
 MkEvent "W91" []; MkEvent "G91" [];
 MkEvent "T92" []; MkEvent "D92" [];
 MkEvent "U93" []; MkEvent "E93" [];
 MkEvent "V94" []; MkEvent "F94" [];
 MkEvent "W95" []; MkEvent "G95" [];
 MkEvent "T96" []; MkEvent "D96" [];
 MkEvent "U97" []; MkEvent "E97" [];
 MkEvent "V98" []; MkEvent "F98" [];
 MkEvent "W99" []; MkEvent "G99" [];
 MkEvent "T100" []; MkEvent "D100" [];
 MkEvent "U101" []; MkEvent "E101" [];
 MkEvent "V102" []; MkEvent "F102" [];
 MkEvent "W103" []; MkEvent "G103" [];
 MkEvent "T104" []; MkEvent "D104" [];
 MkEvent "U105" []; MkEvent "E105" [];
 MkEvent "V106" []; MkEvent "F106" [];
 MkEvent "W107" []; MkEvent "G107" [];
 MkEvent "T108" []; MkEvent "D108" [];
 MkEvent "U109" []; MkEvent "E109" [];
 MkEvent "V110" []; MkEvent "F110" [];
 MkEvent "W111" []; MkEvent "G111" [];
 MkEvent "T112" []; MkEvent "D112" [];
 MkEvent "U113" []; MkEvent "E113" [];
 MkEvent "V114" []; MkEvent "F114" [];
 MkEvent "W115" []; MkEvent "G115" [];
 MkEvent "T116" []; MkEvent "D116" [];
 MkEvent "U117" []; MkEvent "E117" [];
 MkEvent "V118" []; MkEvent "F118" [];
 MkEvent "W119" []; MkEvent "G119" [];
 MkEvent "T120" []; MkEvent "D120" [];
 MkEvent "U121" []; MkEvent "E121" []].
