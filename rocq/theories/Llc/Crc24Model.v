(** Model of src/llc/crc24.c and of [gprs_llc_fcs] in src/llc/llc_pdu.c. *)
From Verif.Lib Require Import Base.

(** src/llc/crc24.c:26-59 [tbl_crc24]: the 256 table entries, transcribed (in decimal). *)
Definition tbl_crc24 : list Z :=
 [
   0; 14067574; 16139607; 2155041; 12026133; 6366819; 4310082; 9921332;
   3410321; 14855911; 12733638; 1371056; 8620164; 5582834; 7720403; 10709669;
   6820642; 12498004; 10376821; 4780291; 14651959; 603457; 2742112; 16740374;
   6036147; 9092549; 11165668; 8190098; 15440806; 4013264; 1957617; 13334919;
   13641284; 426290; 2515731; 15778917; 6793041; 11599911; 9560582; 4670832;
   14954453; 3311779; 1206914; 12897780; 5484224; 8718774; 10873751; 7556321;
   12072294; 7246352; 5140529; 10016583; 1029235; 14226181; 16380196; 3102290;
   9190647; 5938049; 8026528; 11329238; 3915234; 15538836; 13498549; 1793987;
   16467763; 3006533; 852580; 14394642; 5031462; 10117456; 12223345; 7087111;
   13586082; 1698260; 3738613; 15707267; 7917495; 11430081; 9341664; 5778838;
   9655313; 4584295; 6623558; 11777584; 2413828; 15889010; 13799507; 276261;
   10968448; 7469814; 5314775; 8896417; 1105045; 13007843; 15112642; 3161780;
   2842999; 16631297; 14492704; 754518; 10281058; 4867860; 6989109; 12321347;
   2058470; 13225872; 15281585; 4164295; 11069939; 8277637; 6204580; 8915922;
   4420181; 9819427; 11876098; 6525044; 16053056; 2249782; 177687; 13898081;
   7830468; 10607794; 8470163; 5741029; 12647121; 1465767; 3587974; 14686448;
   11371997; 8069803; 6013066; 9267196; 1705160; 13411262; 15483295; 3860201;
   10062924; 5188410; 7325979; 12152429; 3018073; 16296495; 14174222; 978808;
   12949247; 1257865; 3396520; 15037662; 7477226; 10793116; 8671933; 5436875;
   15834990; 2570264; 514617; 13729103; 4595323; 9484557; 11557676; 6749274;
   8233881; 11207919; 9168590; 6111672; 13247116; 1869306; 3958747; 15384749;
   4827656; 10423678; 12578655; 6899753; 16657181; 2657387; 552522; 14600508;
   1421499; 12785613; 14939628; 3494554; 10629550; 7640792; 5534969; 8573839;
   2210090; 16195164; 14154877; 88843; 9844799; 4235081; 6323560; 11983390;
   5685998; 8414616; 10520505; 7741647; 14763003; 3662989; 1509036; 12689882;
   6474623; 11824137; 9735720; 4335966; 13978218; 257308; 2297661; 16099403;
   4116940; 15234746; 13145243; 1979373; 8999129; 6289327; 8328590; 11121400;
   710749; 14450475; 16555274; 2767484; 12409160; 7077438; 4922399; 10337129;
   8840362; 5260252; 7381501; 10880651; 3237311; 15188681; 13050088; 1148830;
   11726139; 6572621; 4499564; 9572122; 355374; 13880152; 15935865; 2461199;
   15660936; 3690750; 1618655; 13505961; 5863069; 9425387; 11482058; 7967932;
   14351897; 809327; 2931534; 16391224; 7175948; 12310650; 10173019; 5086509
 ].

(** src/llc/crc24.c:64 [tbl_crc24[(fcs ^ *data++) & 0xff]]: the index is masked to 0..255, so the
    default of [nth] is never used. *)
Definition crc24_byte (fcs b : Z) : Z :=
  Z.lxor (Z.shiftr fcs 8) (nth (Z.to_nat (Z.land (Z.lxor fcs b) 255)) tbl_crc24 0).

(** src/llc/crc24.c:61-66 [crc24_calc]: the while loop over the octets. *)
Fixpoint crc24_calc (fcs : Z) (data : list Z) : Z :=
  match data with
  | [] => fcs
  | b :: rest => crc24_calc (crc24_byte fcs b) rest
  end.

(** src/llc/llc_pdu.c:75-84 [gprs_llc_fcs]: initial value 0xffffff, complement, mask to 24 bits. *)
Definition gprs_llc_fcs (data : list Z) : Z :=
  Z.land (Z.lnot (crc24_calc 16777215 data)) 16777215.
