(** Model of src/core/crc16.c and include/osmocom/core/crc16.h. *)
From Coq Require Import ZArith List Lia Bool.
From Verif Require Import Base.
Import ListNotations.
Open Scope Z_scope.

(** crc16.c:18-51 osmo_crc16_table *)
Definition osmo_crc16_table : list Z :=
[ 0; 49345; 49537; 320; 49921; 960; 640; 49729; 50689; 1728; 1920; 51009; 1280; 50625; 50305; 1088;
  52225; 3264; 3456; 52545; 3840; 53185; 52865; 3648; 2560; 51905; 52097; 2880; 51457; 2496; 2176; 51265;
  55297; 6336; 6528; 55617; 6912; 56257; 55937; 6720; 7680; 57025; 57217; 8000; 56577; 7616; 7296; 56385;
  5120; 54465; 54657; 5440; 55041; 6080; 5760; 54849; 53761; 4800; 4992; 54081; 4352; 53697; 53377; 4160;
  61441; 12480; 12672; 61761; 13056; 62401; 62081; 12864; 13824; 63169; 63361; 14144; 62721; 13760; 13440; 62529;
  15360; 64705; 64897; 15680; 65281; 16320; 16000; 65089; 64001; 15040; 15232; 64321; 14592; 63937; 63617; 14400;
  10240; 59585; 59777; 10560; 60161; 11200; 10880; 59969; 60929; 11968; 12160; 61249; 11520; 60865; 60545; 11328;
  58369; 9408; 9600; 58689; 9984; 59329; 59009; 9792; 8704; 58049; 58241; 9024; 57601; 8640; 8320; 57409;
  40961; 24768; 24960; 41281; 25344; 41921; 41601; 25152; 26112; 42689; 42881; 26432; 42241; 26048; 25728; 42049;
  27648; 44225; 44417; 27968; 44801; 28608; 28288; 44609; 43521; 27328; 27520; 43841; 26880; 43457; 43137; 26688;
  30720; 47297; 47489; 31040; 47873; 31680; 31360; 47681; 48641; 32448; 32640; 48961; 32000; 48577; 48257; 31808;
  46081; 29888; 30080; 46401; 30464; 47041; 46721; 30272; 29184; 45761; 45953; 29504; 45313; 29120; 28800; 45121;
  20480; 37057; 37249; 20800; 37633; 21440; 21120; 37441; 38401; 22208; 22400; 38721; 21760; 38337; 38017; 21568;
  39937; 23744; 23936; 40257; 24320; 40897; 40577; 24128; 23040; 39617; 39809; 23360; 39169; 22976; 22656; 38977;
  34817; 18624; 18816; 35137; 19200; 35777; 35457; 19008; 19968; 36545; 36737; 20288; 36097; 19904; 19584; 35905;
  17408; 33985; 34177; 17728; 34561; 18368; 18048; 34369; 33281; 17088; 17280; 33601; 16640; 33217; 32897; 16448 ].
(** crc16.c:67-100 osmo_crc16_ccitt_table *)
Definition osmo_crc16_ccitt_table : list Z :=
[ 0; 4489; 8978; 12955; 17956; 22445; 25910; 29887; 35912; 40385; 44890; 48851; 51820; 56293; 59774; 63735;
  4225; 264; 13203; 8730; 22181; 18220; 30135; 25662; 40137; 36160; 49115; 44626; 56045; 52068; 63999; 59510;
  8450; 12427; 528; 5017; 26406; 30383; 17460; 21949; 44362; 48323; 36440; 40913; 60270; 64231; 51324; 55797;
  12675; 8202; 4753; 792; 30631; 26158; 21685; 17724; 48587; 44098; 40665; 36688; 64495; 60006; 55549; 51572;
  16900; 21389; 24854; 28831; 1056; 5545; 10034; 14011; 52812; 57285; 60766; 64727; 34920; 39393; 43898; 47859;
  21125; 17164; 29079; 24606; 5281; 1320; 14259; 9786; 57037; 53060; 64991; 60502; 39145; 35168; 48123; 43634;
  25350; 29327; 16404; 20893; 9506; 13483; 1584; 6073; 61262; 65223; 52316; 56789; 43370; 47331; 35448; 39921;
  29575; 25102; 20629; 16668; 13731; 9258; 5809; 1848; 65487; 60998; 56541; 52564; 47595; 43106; 39673; 35696;
  33800; 38273; 42778; 46739; 49708; 54181; 57662; 61623; 2112; 6601; 11090; 15067; 20068; 24557; 28022; 31999;
  38025; 34048; 47003; 42514; 53933; 49956; 61887; 57398; 6337; 2376; 15315; 10842; 24293; 20332; 32247; 27774;
  42250; 46211; 34328; 38801; 58158; 62119; 49212; 53685; 10562; 14539; 2640; 7129; 28518; 32495; 19572; 24061;
  46475; 41986; 38553; 34576; 62383; 57894; 53437; 49460; 14787; 10314; 6865; 2904; 32743; 28270; 23797; 19836;
  50700; 55173; 58654; 62615; 32808; 37281; 41786; 45747; 19012; 23501; 26966; 30943; 3168; 7657; 12146; 16123;
  54925; 50948; 62879; 58390; 37033; 33056; 46011; 41522; 23237; 19276; 31191; 26718; 7393; 3432; 16371; 11898;
  59150; 63111; 50204; 54677; 41258; 45219; 33336; 37809; 27462; 31439; 18516; 23005; 11618; 15595; 3696; 8185;
  63375; 58886; 54429; 50452; 45483; 40994; 37561; 33584; 31687; 27214; 22741; 18780; 15843; 11370; 7921; 3960 ].
(** crc16.h:32-35 osmo_crc16_byte *)
Definition osmo_crc16_byte (crc data : Z) : Z :=
  Z.lxor (Z.shiftr crc 8) (at0 osmo_crc16_table (Z.land (Z.lxor crc data) 255)).
(** crc16.h:44-47 osmo_crc16_ccitt_byte *)
Definition osmo_crc16_ccitt_byte (crc data : Z) : Z :=
  Z.lxor (Z.shiftr crc 8) (at0 osmo_crc16_ccitt_table (Z.land (Z.lxor crc data) 255)).
(** crc16.c:59-64 osmo_crc16 (the first [len] octets of the buffer) *)
Fixpoint osmo_crc16 (crc : Z) (buffer : list Z) (len : nat) : res Z :=
  match len with
  | O => Ok crc
  | S m => match buffer with [] => UB | b :: t => osmo_crc16 (osmo_crc16_byte crc b) t m end
  end.
(** crc16.c:108-113 osmo_crc16_ccitt *)
Fixpoint osmo_crc16_ccitt (crc : Z) (buffer : list Z) (len : nat) : res Z :=
  match len with
  | O => Ok crc
  | S m => match buffer with [] => UB | b :: t => osmo_crc16_ccitt (osmo_crc16_ccitt_byte crc b) t m end
  end.
