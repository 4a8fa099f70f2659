(** Tables of the detector, written by tools/detector_data.py from the text of
    /repo/egenerator/utils/detector.py and dom_noise_rates.py. *)
From Coq Require Import ZArith List.
Import ListNotations.
Open Scope Z_scope.

(** [x_coords_flat] (detector.py l.10-10) in hundredths of a metre, 180 numbers (one string) per line *)
Definition x_coords_flat_lines : list (list Z) := [
  [-25614; -52108; 49603; -25614; -52108; 47901; -25614; -52108; 46199; -25614; -52108; 44497; -25614; -52108; 42795; -25614; -52108; 41093; -25614; -52108; 39391; -25614; -52108; 37688; -25614; -52108; 35986; -25614; -52108; 34284; -25614; -52108; 32582; -25614; -52108; 30880; -25614; -52108; 29178; -25614; -52108; 27476; -25614; -52108; 25774; -25614; -52108; 24072; -25614; -52108; 22370; -25614; -52108; 20668; -25614; -52108; 18966; -25614; -52108; 17264; -25614; -52108; 15562; -25614; -52108; 13859; -25614; -52108; 12157; -25614; -52108; 10455; -25614; -52108; 8753; -25614; -52108; 7051; -25614; -52108; 5349; -25614; -52108; 3647; -25614; -52108; 1945; -25614; -52108; 243; -25614; -52108; -1459; -25614; -52108; -3161; -25614; -52108; -4863; -25614; -52108; -6565; -25614; -52108; -8268; -25614; -52108; -9970; -25614; -52108; -11672; -25614; -52108; -13374; -25614; -52108; -15076; -25614; -52108; -16778; -25614; -52108; -18480; -25614; -52108; -20182; -25614; -52108; -21884; -25614; -52108; -23586; -25614; -52108; -25288; -25614; -52108; -26990; -25614; -52108; -28692; -25614; -52108; -30395; -25614; -52108; -32097; -25614; -52108; -33799; -25614; -52108; -35501; -25614; -52108; -37203; -25614; -52108; -38905; -25614; -52108; -40607; -25614; -52108; -42309; -25614; -52108; -44011; -25614; -52108; -45713; -25614; -52108; -47415; -25614; -52108; -49117; -25614; -52108; -50440];
  [-13280; -50145; 50007; -13280; -50145; 48305; -13280; -50145; 46603; -13280; -50145; 44901; -13280; -50145; 43199; -13280; -50145; 41497; -13280; -50145; 39795; -13280; -50145; 38093; -13280; -50145; 36391; -13280; -50145; 34689; -13280; -50145; 32987; -13280; -50145; 31285; -13280; -50145; 29583; -13280; -50145; 27880; -13280; -50145; 26178; -13280; -50145; 24476; -13280; -50145; 22774; -13280; -50145; 21072; -13280; -50145; 19370; -13280; -50145; 17668; -13280; -50145; 15966; -13280; -50145; 14264; -13280; -50145; 12562; -13280; -50145; 10860; -13280; -50145; 9158; -13280; -50145; 7456; -13280; -50145; 5754; -13280; -50145; 4051; -13280; -50145; 2349; -13280; -50145; 647; -13280; -50145; -1055; -13280; -50145; -2757; -13280; -50145; -4459; -13280; -50145; -6161; -13280; -50145; -7863; -13280; -50145; -9565; -13280; -50145; -11267; -13280; -50145; -12969; -13280; -50145; -14671; -13280; -50145; -16373; -13280; -50145; -18076; -13280; -50145; -19778; -13280; -50145; -21480; -13280; -50145; -23182; -13280; -50145; -24884; -13280; -50145; -26586; -13280; -50145; -28288; -13280; -50145; -29990; -13280; -50145; -31692; -13280; -50145; -33394; -13280; -50145; -35096; -13280; -50145; -36798; -13280; -50145; -38500; -13280; -50145; -40203; -13280; -50145; -41905; -13280; -50145; -43607; -13280; -50145; -45309; -13280; -50145; -47011; -13280; -50145; -48713; -13280; -50145; -50415];
  [-913; -48174; 49923; -913; -48174; 48221; -913; -48174; 46519; -913; -48174; 44817; -913; -48174; 43115; -913; -48174; 41413; -913; -48174; 39711; -913; -48174; 38009; -913; -48174; 36307; -913; -48174; 34605; -913; -48174; 32903; -913; -48174; 31201; -913; -48174; 29499; -913; -48174; 27796; -913; -48174; 26094; -913; -48174; 24392; -913; -48174; 22690; -913; -48174; 20988; -913; -48174; 19286; -913; -48174; 17584; -913; -48174; 15882; -913; -48174; 14180; -913; -48174; 12478; -913; -48174; 10776; -913; -48174; 9074; -913; -48174; 7372; -913; -48174; 5670; -913; -48174; 3967; -913; -48174; 2265; -913; -48174; 563; -913; -48174; -1139; -913; -48174; -2841; -913; -48174; -4543; -913; -48174; -6245; -913; -48174; -7947; -913; -48174; -9649; -913; -48174; -11351; -913; -48174; -13053; -913; -48174; -14755; -913; -48174; -16457; -913; -48174; -18160; -913; -48174; -19862; -913; -48174; -21564; -913; -48174; -23266; -913; -48174; -24968; -913; -48174; -26670; -913; -48174; -28372; -913; -48174; -30074; -913; -48174; -31776; -913; -48174; -33478; -913; -48174; -35180; -913; -48174; -36882; -913; -48174; -38584; -913; -48174; -40287; -913; -48174; -41989; -913; -48174; -43691; -913; -48174; -45393; -913; -48174; -47095; -913; -48174; -48797; -913; -48174; -50499];
  [11439; -46199; 49866; 11439; -46199; 48164; 11439; -46199; 46462; 11439; -46199; 44760; 11439; -46199; 43058; 11439; -46199; 41356; 11439; -46199; 39654; 11439; -46199; 37952; 11439; -46199; 36250; 11439; -46199; 34548; 11439; -46199; 32846; 11439; -46199; 31144; 11439; -46199; 29442; 11439; -46199; 27739; 11439; -46199; 26037; 11439; -46199; 24335; 11439; -46199; 22633; 11439; -46199; 20931; 11439; -46199; 19229; 11439; -46199; 17527; 11439; -46199; 15825; 11439; -46199; 14123; 11439; -46199; 12421; 11439; -46199; 10719; 11439; -46199; 9017; 11439; -46199; 7315; 11439; -46199; 5613; 11439; -46199; 3910; 11439; -46199; 2208; 11439; -46199; 506; 11439; -46199; -1196; 11439; -46199; -2898; 11439; -46199; -4600; 11439; -46199; -6302; 11439; -46199; -8004; 11439; -46199; -9706; 11439; -46199; -11408; 11439; -46199; -13110; 11439; -46199; -14812; 11439; -46199; -16514; 11439; -46199; -18217; 11439; -46199; -19919; 11439; -46199; -21621; 11439; -46199; -23323; 11439; -46199; -25025; 11439; -46199; -26727; 11439; -46199; -28429; 11439; -46199; -30131; 11439; -46199; -31833; 11439; -46199; -33535; 11439; -46199; -35237; 11439; -46199; -36939; 11439; -46199; -38641; 11439; -46199; -40344; 11439; -46199; -42046; 11439; -46199; -43748; 11439; -46199; -45450; 11439; -46199; -47152; 11439; -46199; -48854; 11439; -46199; -50556];
  [23778; -44242; 50146; 23778; -44242; 48444; 23778; -44242; 46742; 23778; -44242; 45040; 23778; -44242; 43338; 23778; -44242; 41636; 23778; -44242; 39934; 23778; -44242; 38232; 23778; -44242; 36530; 23778; -44242; 34828; 23778; -44242; 33126; 23778; -44242; 31424; 23778; -44242; 29722; 23778; -44242; 28019; 23778; -44242; 26317; 23778; -44242; 24615; 23778; -44242; 22913; 23778; -44242; 21211; 23778; -44242; 19509; 23778; -44242; 17807; 23778; -44242; 16105; 23778; -44242; 14403; 23778; -44242; 12701; 23778; -44242; 10999; 23778; -44242; 9297; 23778; -44242; 7595; 23778; -44242; 5893; 23778; -44242; 4190; 23778; -44242; 2488; 23778; -44242; 786; 23778; -44242; -916; 23778; -44242; -2618; 23778; -44242; -4320; 23778; -44242; -6022; 23778; -44242; -7724; 23778; -44242; -9426; 23778; -44242; -11128; 23778; -44242; -12830; 23778; -44242; -14532; 23778; -44242; -16234; 23778; -44242; -17937; 23778; -44242; -19639; 23778; -44242; -21341; 23778; -44242; -23043; 23778; -44242; -24745; 23778; -44242; -26447; 23778; -44242; -28149; 23778; -44242; -29851; 23778; -44242; -31553; 23778; -44242; -33255; 23778; -44242; -34957; 23778; -44242; -36659; 23778; -44242; -38361; 23778; -44242; -40064; 23778; -44242; -41766; 23778; -44242; -43468; 23778; -44242; -45170; 23778; -44242; -46872; 23778; -44242; -48574; 23778; -44242; -50276];
  [36100; -42283; 49951; 36100; -42283; 48249; 36100; -42283; 46547; 36100; -42283; 44845; 36100; -42283; 43143; 36100; -42283; 41441; 36100; -42283; 39739; 36100; -42283; 38037; 36100; -42283; 36335; 36100; -42283; 34633; 36100; -42283; 32931; 36100; -42283; 31229; 36100; -42283; 29527; 36100; -42283; 27824; 36100; -42283; 26122; 36100; -42283; 24420; 36100; -42283; 22718; 36100; -42283; 21016; 36100; -42283; 19314; 36100; -42283; 17612; 36100; -42283; 15910; 36100; -42283; 14208; 36100; -42283; 12506; 36100; -42283; 10804; 36100; -42283; 9102; 36100; -42283; 7400; 36100; -42283; 5698; 36100; -42283; 3995; 36100; -42283; 2293; 36100; -42283; 591; 36100; -42283; -1111; 36100; -42283; -2813; 36100; -42283; -4515; 36100; -42283; -6217; 36100; -42283; -7919; 36100; -42283; -9621; 36100; -42283; -11323; 36100; -42283; -13025; 36100; -42283; -14727; 36100; -42283; -16429; 36100; -42283; -18132; 36100; -42283; -19834; 36100; -42283; -21536; 36100; -42283; -23238; 36100; -42283; -24940; 36100; -42283; -26642; 36100; -42283; -28344; 36100; -42283; -30046; 36100; -42283; -31748; 36100; -42283; -33450; 36100; -42283; -35152; 36100; -42283; -36854; 36100; -42283; -38556; 36100; -42283; -40259; 36100; -42283; -41961; 36100; -42283; -43663; 36100; -42283; -45365; 36100; -42283; -47067; 36100; -42283; -48769; 36100; -42283; -50471];
  [-33480; -42450; 50059; -33480; -42450; 48357; -33480; -42450; 46655; -33480; -42450; 44953; -33480; -42450; 43251; -33480; -42450; 41549; -33480; -42450; 39847; -33480; -42450; 38145; -33480; -42450; 36443; -33480; -42450; 34741; -33480; -42450; 33039; -33480; -42450; 31337; -33480; -42450; 29635; -33480; -42450; 27932; -33480; -42450; 26230; -33480; -42450; 24528; -33480; -42450; 22826; -33480; -42450; 21124; -33480; -42450; 19422; -33480; -42450; 17720; -33480; -42450; 16018; -33480; -42450; 14316; -33480; -42450; 12614; -33480; -42450; 10912; -33480; -42450; 9210; -33480; -42450; 7508; -33480; -42450; 5806; -33480; -42450; 4103; -33480; -42450; 2401; -33480; -42450; 699; -33480; -42450; -1003; -33480; -42450; -2705; -33480; -42450; -4407; -33480; -42450; -6109; -33480; -42450; -7811; -33480; -42450; -9513; -33480; -42450; -11215; -33480; -42450; -12917; -33480; -42450; -14619; -33480; -42450; -16321; -33480; -42450; -18024; -33480; -42450; -19726; -33480; -42450; -21428; -33480; -42450; -23130; -33480; -42450; -24832; -33480; -42450; -26534; -33480; -42450; -28236; -33480; -42450; -29938; -33480; -42450; -31640; -33480; -42450; -33342; -33480; -42450; -35044; -33480; -42450; -36746; -33480; -42450; -38448; -33480; -42450; -40151; -33480; -42450; -41853; -33480; -42450; -43555; -33480; -42450; -45257; -33480; -42450; -46959; -33480; -42450; -48661; -33480; -42450; -50363];
  [-21135; -40448; 49863; -21135; -40448; 48161; -21135; -40448; 46459; -21135; -40448; 44756; -21135; -40448; 43054; -21135; -40448; 41352; -21135; -40448; 39650; -21135; -40448; 37948; -21135; -40448; 36246; -21135; -40448; 34544; -21135; -40448; 32842; -21135; -40448; 31140; -21135; -40448; 29438; -21135; -40448; 27736; -21135; -40448; 26034; -21135; -40448; 24332; -21135; -40448; 22629; -21135; -40448; 20927; -21135; -40448; 19225; -21135; -40448; 17523; -21135; -40448; 15821; -21135; -40448; 14119; -21135; -40448; 12417; -21135; -40448; 10715; -21135; -40448; 9013; -21135; -40448; 7311; -21135; -40448; 5609; -21135; -40448; 3907; -21135; -40448; 2205; -21135; -40448; 502; -21135; -40448; -1200; -21135; -40448; -2902; -21135; -40448; -4604; -21135; -40448; -6306; -21135; -40448; -8008; -21135; -40448; -9710; -21135; -40448; -11412; -21135; -40448; -13114; -21135; -40448; -14816; -21135; -40448; -16518; -21135; -40448; -18220; -21135; -40448; -19922; -21135; -40448; -21624; -21135; -40448; -23327; -21135; -40448; -25029; -21135; -40448; -26731; -21135; -40448; -28433; -21135; -40448; -30135; -21135; -40448; -31837; -21135; -40448; -33539; -21135; -40448; -35241; -21135; -40448; -36943; -21135; -40448; -38645; -21135; -40448; -40347; -21135; -40448; -42049; -21135; -40448; -43751; -21135; -40448; -45454; -21135; -40448; -47156; -21135; -40448; -49038; -21135; -40448; -50740];
  [-8805; -38430; 50002; -8805; -38430; 48299; -8805; -38430; 46597; -8805; -38430; 44895; -8805; -38430; 43193; -8805; -38430; 41491; -8805; -38430; 39789; -8805; -38430; 38087; -8805; -38430; 36385; -8805; -38430; 34683; -8805; -38430; 32981; -8805; -38430; 31279; -8805; -38430; 29577; -8805; -38430; 27875; -8805; -38430; 26172; -8805; -38430; 24470; -8805; -38430; 22768; -8805; -38430; 21066; -8805; -38430; 19364; -8805; -38430; 17662; -8805; -38430; 15960; -8805; -38430; 14258; -8805; -38430; 12556; -8805; -38430; 10854; -8805; -38430; 9152; -8805; -38430; 7450; -8805; -38430; 5748; -8805; -38430; 4046; -8805; -38430; 2343; -8805; -38430; 641; -8805; -38430; -1061; -8805; -38430; -2763; -8805; -38430; -4465; -8805; -38430; -6167; -8805; -38430; -7869; -8805; -38430; -9571; -8805; -38430; -11273; -8805; -38430; -12975; -8805; -38430; -14677; -8805; -38430; -16379; -8805; -38430; -18081; -8805; -38430; -19784; -8805; -38430; -21486; -8805; -38430; -23188; -8805; -38430; -24890; -8805; -38430; -26592; -8805; -38430; -28294; -8805; -38430; -29996; -8805; -38430; -31698; -8805; -38430; -33400; -8805; -38430; -35102; -8805; -38430; -36804; -8805; -38430; -38506; -8805; -38430; -40208; -8805; -38430; -41911; -8805; -38430; -43613; -8805; -38430; -45315; -8805; -38430; -47017; -8805; -38430; -48719; -8805; -38430; -50483];
  [3554; -36483; 49771; 3554; -36483; 48069; 3554; -36483; 46367; 3554; -36483; 44665; 3554; -36483; 42963; 3554; -36483; 41261; 3554; -36483; 39559; 3554; -36483; 37857; 3554; -36483; 36155; 3554; -36483; 34453; 3554; -36483; 32751; 3554; -36483; 31049; 3554; -36483; 29347; 3554; -36483; 27644; 3554; -36483; 25942; 3554; -36483; 24240; 3554; -36483; 22538; 3554; -36483; 20836; 3554; -36483; 19134; 3554; -36483; 17432; 3554; -36483; 15730; 3554; -36483; 14028; 3554; -36483; 12326; 3554; -36483; 10624; 3554; -36483; 8922; 3554; -36483; 7220; 3554; -36483; 5518; 3554; -36483; 3815; 3554; -36483; 2113; 3554; -36483; 411; 3554; -36483; -1291; 3554; -36483; -2993; 3554; -36483; -4695; 3554; -36483; -6397; 3554; -36483; -8099; 3554; -36483; -9801; 3554; -36483; -11503; 3554; -36483; -13205; 3554; -36483; -14907; 3554; -36483; -16609; 3554; -36483; -18312; 3554; -36483; -20014; 3554; -36483; -21716; 3554; -36483; -23418; 3554; -36483; -25120; 3554; -36483; -26822; 3554; -36483; -28524; 3554; -36483; -30226; 3554; -36483; -31928; 3554; -36483; -33630; 3554; -36483; -35332; 3554; -36483; -37034; 3554; -36483; -38736; 3554; -36483; -40439; 3554; -36483; -42141; 3554; -36483; -43843; 3554; -36483; -45545; 3554; -36483; -47247; 3554; -36483; -48949; 3554; -36483; -50651];
  [15894; -34523; 49983; 15894; -34523; 48281; 15894; -34523; 46579; 15894; -34523; 44877; 15894; -34523; 43175; 15894; -34523; 41473; 15894; -34523; 39771; 15894; -34523; 38069; 15894; -34523; 36367; 15894; -34523; 34665; 15894; -34523; 32963; 15894; -34523; 31261; 15894; -34523; 29559; 15894; -34523; 27856; 15894; -34523; 26154; 15894; -34523; 24452; 15894; -34523; 22750; 15894; -34523; 21048; 15894; -34523; 19346; 15894; -34523; 17644; 15894; -34523; 15942; 15894; -34523; 14240; 15894; -34523; 12538; 15894; -34523; 10836; 15894; -34523; 9134; 15894; -34523; 7432; 15894; -34523; 5730; 15894; -34523; 4027; 15894; -34523; 2325; 15894; -34523; 623; 15894; -34523; -1079; 15894; -34523; -2781; 15894; -34523; -4483; 15894; -34523; -6185; 15894; -34523; -7887; 15894; -34523; -9589; 15894; -34523; -11291; 15894; -34523; -12993; 15894; -34523; -14695; 15894; -34523; -16397; 15894; -34523; -18100; 15894; -34523; -19802; 15894; -34523; -21504; 15894; -34523; -23206; 15894; -34523; -24908; 15894; -34523; -26610; 15894; -34523; -28312; 15894; -34523; -30014; 15894; -34523; -31716; 15894; -34523; -33418; 15894; -34523; -35120; 15894; -34523; -36822; 15894; -34523; -38524; 15894; -34523; -40227; 15894; -34523; -41929; 15894; -34523; -43631; 15894; -34523; -45333; 15894; -34523; -47035; 15894; -34523; -48737; 15894; -34523; -50439];
  [28218; -32574; 49844; 28218; -32574; 48142; 28218; -32574; 46440; 28218; -32574; 44738; 28218; -32574; 43036; 28218; -32574; 41334; 28218; -32574; 39632; 28218; -32574; 37930; 28218; -32574; 36228; 28218; -32574; 34526; 28218; -32574; 32824; 28218; -32574; 31122; 28218; -32574; 29420; 28218; -32574; 27717; 28218; -32574; 26015; 28218; -32574; 24313; 28218; -32574; 22611; 28218; -32574; 20909; 28218; -32574; 19207; 28218; -32574; 17505; 28218; -32574; 15803; 28218; -32574; 14101; 28218; -32574; 12399; 28218; -32574; 10697; 28218; -32574; 8995; 28218; -32574; 7293; 28218; -32574; 5591; 28218; -32574; 3888; 28218; -32574; 2186; 28218; -32574; 484; 28218; -32574; -1218; 28218; -32574; -2920; 28218; -32574; -4622; 28218; -32574; -6324; 28218; -32574; -8026; 28218; -32574; -9728; 28218; -32574; -11430; 28218; -32574; -13132; 28218; -32574; -14834; 28218; -32574; -16536; 28218; -32574; -18239; 28218; -32574; -19941; 28218; -32574; -21643; 28218; -32574; -23345; 28218; -32574; -25047; 28218; -32574; -26749; 28218; -32574; -28451; 28218; -32574; -30153; 28218; -32574; -31855; 28218; -32574; -33557; 28218; -32574; -35259; 28218; -32574; -36961; 28218; -32574; -38663; 28218; -32574; -40366; 28218; -32574; -42068; 28218; -32574; -43770; 28218; -32574; -45472; 28218; -32574; -47174; 28218; -32574; -48876; 28218; -32574; -50578];
  [40583; -30638; 49513; 40583; -30638; 47811; 40583; -30638; 46109; 40583; -30638; 44407; 40583; -30638; 42705; 40583; -30638; 41003; 40583; -30638; 39301; 40583; -30638; 37599; 40583; -30638; 35897; 40583; -30638; 34195; 40583; -30638; 32493; 40583; -30638; 30791; 40583; -30638; 29089; 40583; -30638; 27386; 40583; -30638; 25684; 40583; -30638; 23982; 40583; -30638; 22280; 40583; -30638; 20578; 40583; -30638; 18876; 40583; -30638; 17174; 40583; -30638; 15472; 40583; -30638; 13770; 40583; -30638; 12068; 40583; -30638; 10366; 40583; -30638; 8664; 40583; -30638; 6962; 40583; -30638; 5260; 40583; -30638; 3557; 40583; -30638; 1855; 40583; -30638; 153; 40583; -30638; -1549; 40583; -30638; -3251; 40583; -30638; -4953; 40583; -30638; -6655; 40583; -30638; -8357; 40583; -30638; -10059; 40583; -30638; -11761; 40583; -30638; -13463; 40583; -30638; -15165; 40583; -30638; -16867; 40583; -30638; -18570; 40583; -30638; -20272; 40583; -30638; -21974; 40583; -30638; -23676; 40583; -30638; -25378; 40583; -30638; -27080; 40583; -30638; -28782; 40583; -30638; -30484; 40583; -30638; -32186; 40583; -30638; -33888; 40583; -30638; -35590; 40583; -30638; -37292; 40583; -30638; -38994; 40583; -30638; -40697; 40583; -30638; -42399; 40583; -30638; -44101; 40583; -30638; -45803; 40583; -30638; -47505; 40583; -30638; -49207; 40583; -30638; -50909];
  [-41346; -32727; 49959; -41346; -32727; 48257; -41346; -32727; 46555; -41346; -32727; 44853; -41346; -32727; 43151; -41346; -32727; 41449; -41346; -32727; 39747; -41346; -32727; 38045; -41346; -32727; 36343; -41346; -32727; 34641; -41346; -32727; 32939; -41346; -32727; 31237; -41346; -32727; 29535; -41346; -32727; 27832; -41346; -32727; 26130; -41346; -32727; 24428; -41346; -32727; 22726; -41346; -32727; 21024; -41346; -32727; 19322; -41346; -32727; 17620; -41346; -32727; 15918; -41346; -32727; 14216; -41346; -32727; 12514; -41346; -32727; 10812; -41346; -32727; 9110; -41346; -32727; 7408; -41346; -32727; 5706; -41346; -32727; 4003; -41346; -32727; 2301; -41346; -32727; 599; -41346; -32727; -1103; -41346; -32727; -2805; -41346; -32727; -4507; -41346; -32727; -6209; -41346; -32727; -7911; -41346; -32727; -9613; -41346; -32727; -11315; -41346; -32727; -13017; -41346; -32727; -14719; -41346; -32727; -16421; -41346; -32727; -18124; -41346; -32727; -19826; -41346; -32727; -21528; -41346; -32727; -23230; -41346; -32727; -24932; -41346; -32727; -26634; -41346; -32727; -28336; -41346; -32727; -30038; -41346; -32727; -31740; -41346; -32727; -33442; -41346; -32727; -35144; -41346; -32727; -36846; -41346; -32727; -38548; -41346; -32727; -40251; -41346; -32727; -41953; -41346; -32727; -43655; -41346; -32727; -45357; -41346; -32727; -47059; -41346; -32727; -48761; -41346; -32727; -50463];
  [-29066; -30738; 50402; -29066; -30738; 48700; -29066; -30738; 46998; -29066; -30738; 45296; -29066; -30738; 43594; -29066; -30738; 41892; -29066; -30738; 40190; -29066; -30738; 38488; -29066; -30738; 36786; -29066; -30738; 35084; -29066; -30738; 33382; -29066; -30738; 31680; -29066; -30738; 29978; -29066; -30738; 28275; -29066; -30738; 26573; -29066; -30738; 24871; -29066; -30738; 23169; -29066; -30738; 21467; -29066; -30738; 19765; -29066; -30738; 18063; -29066; -30738; 16361; -29066; -30738; 14659; -29066; -30738; 12957; -29066; -30738; 11255; -29066; -30738; 9565; -29066; -30738; 7863; -29066; -30738; 6161; -29066; -30738; 4458; -29066; -30738; 2756; -29066; -30738; 1054; -29066; -30738; -648; -29066; -30738; -2350; -29066; -30738; -4052; -29066; -30738; -5754; -29066; -30738; -7456; -29066; -30738; -9158; -29066; -30738; -10860; -29066; -30738; -12562; -29066; -30738; -14264; -29066; -30738; -15966; -29066; -30738; -17669; -29066; -30738; -19371; -29066; -30738; -21073; -29066; -30738; -22775; -29066; -30738; -24477; -29066; -30738; -26179; -29066; -30738; -27881; -29066; -30738; -29583; -29066; -30738; -31285; -29066; -30738; -32987; -29066; -30738; -34689; -29066; -30738; -36391; -29066; -30738; -38093; -29066; -30738; -39796; -29066; -30738; -41498; -29066; -30738; -43200; -29066; -30738; -44902; -29066; -30738; -46604; -29066; -30738; -48306; -29066; -30738; -50008];
  [-16640; -28779; 49778; -16640; -28779; 48051; -16640; -28779; 46349; -16640; -28779; 44647; -16640; -28779; 42945; -16640; -28779; 41243; -16640; -28779; 39541; -16640; -28779; 37839; -16640; -28779; 36137; -16640; -28779; 34435; -16640; -28779; 32733; -16640; -28779; 31031; -16640; -28779; 29329; -16640; -28779; 27626; -16640; -28779; 25924; -16640; -28779; 24222; -16640; -28779; 22520; -16640; -28779; 20830; -16640; -28779; 19128; -16640; -28779; 17426; -16640; -28779; 15724; -16640; -28779; 14022; -16640; -28779; 12320; -16640; -28779; 10618; -16640; -28779; 8916; -16640; -28779; 7214; -16640; -28779; 5511; -16640; -28779; 3809; -16640; -28779; 2107; -16640; -28779; 405; -16640; -28779; -1297; -16640; -28779; -2999; -16640; -28779; -4701; -16640; -28779; -6403; -16640; -28779; -8105; -16640; -28779; -9807; -16640; -28779; -11509; -16640; -28779; -13211; -16640; -28779; -14913; -16640; -28779; -16615; -16640; -28779; -18318; -16640; -28779; -20020; -16640; -28779; -21722; -16640; -28779; -23424; -16640; -28779; -25126; -16640; -28779; -26828; -16640; -28779; -28530; -16640; -28779; -30232; -16640; -28779; -31934; -16640; -28779; -33636; -16640; -28779; -35338; -16640; -28779; -37040; -16640; -28779; -38729; -16640; -28779; -40432; -16640; -28779; -42134; -16640; -28779; -43836; -16640; -28779; -45538; -16640; -28779; -47240; -16640; -28779; -48942; -16640; -28779; -50644];
  [-4327; -26752; 50043; -4327; -26752; 48310; -4327; -26752; 46608; -4327; -26752; 44906; -4327; -26752; 43204; -4327; -26752; 41502; -4327; -26752; 39800; -4327; -26752; 38098; -4327; -26752; 36396; -4327; -26752; 34694; -4327; -26752; 32992; -4327; -26752; 31290; -4327; -26752; 29588; -4327; -26752; 27885; -4327; -26752; 26183; -4327; -26752; 24481; -4327; -26752; 22779; -4327; -26752; 21077; -4327; -26752; 19375; -4327; -26752; 17673; -4327; -26752; 15971; -4327; -26752; 14269; -4327; -26752; 12567; -4327; -26752; 10865; -4327; -26752; 9163; -4327; -26752; 7461; -4327; -26752; 5759; -4327; -26752; 4056; -4327; -26752; 2354; -4327; -26752; 652; -4327; -26752; -1050; -4327; -26752; -2752; -4327; -26752; -4454; -4327; -26752; -6156; -4327; -26752; -7858; -4327; -26752; -9560; -4327; -26752; -11262; -4327; -26752; -12964; -4327; -26752; -14666; -4327; -26752; -16368; -4327; -26752; -18071; -4327; -26752; -19773; -4327; -26752; -21475; -4327; -26752; -23177; -4327; -26752; -24879; -4327; -26752; -26581; -4327; -26752; -28283; -4327; -26752; -29985; -4327; -26752; -31687; -4327; -26752; -33389; -4327; -26752; -35091; -4327; -26752; -36793; -4327; -26752; -38495; -4327; -26752; -40198; -4327; -26752; -41900; -4327; -26752; -43602; -4327; -26752; -45304; -4327; -26752; -47006; -4327; -26752; -48708; -4327; -26752; -50410];
  [7941; -24824; 49890; 7941; -24824; 48188; 7941; -24824; 46486; 7941; -24824; 44784; 7941; -24824; 43082; 7941; -24824; 41380; 7941; -24824; 39678; 7941; -24824; 37976; 7941; -24824; 36274; 7941; -24824; 34572; 7941; -24824; 32870; 7941; -24824; 31168; 7941; -24824; 29466; 7941; -24824; 27763; 7941; -24824; 26061; 7941; -24824; 24359; 7941; -24824; 22657; 7941; -24824; 20955; 7941; -24824; 19253; 7941; -24824; 17551; 7941; -24824; 15849; 7941; -24824; 14147; 7941; -24824; 12445; 7941; -24824; 10743; 7941; -24824; 9041; 7941; -24824; 7339; 7941; -24824; 5637; 7941; -24824; 3934; 7941; -24824; 2232; 7941; -24824; 530; 7941; -24824; -1172; 7941; -24824; -2874; 7941; -24824; -4576; 7941; -24824; -6278; 7941; -24824; -7980; 7941; -24824; -9682; 7941; -24824; -11384; 7941; -24824; -13086; 7941; -24824; -14788; 7941; -24824; -16490; 7941; -24824; -18193; 7941; -24824; -19895; 7941; -24824; -21597; 7941; -24824; -23299; 7941; -24824; -25001; 7941; -24824; -26703; 7941; -24824; -28405; 7941; -24824; -30107; 7941; -24824; -31809; 7941; -24824; -33511; 7941; -24824; -35213; 7941; -24824; -36915; 7941; -24824; -38617; 7941; -24824; -40320; 7941; -24824; -42022; 7941; -24824; -43724; 7941; -24824; -45426; 7941; -24824; -47128; 7941; -24824; -48830; 7941; -24824; -50532];
  [21047; -20977; 49694; 21047; -20977; 47992; 21047; -20977; 46290; 21047; -20977; 44588; 21047; -20977; 42886; 21047; -20977; 41184; 21047; -20977; 39482; 21047; -20977; 37780; 21047; -20977; 36078; 21047; -20977; 34376; 21047; -20977; 32674; 21047; -20977; 30972; 21047; -20977; 29270; 21047; -20977; 27567; 21047; -20977; 25865; 21047; -20977; 24163; 21047; -20977; 22461; 21047; -20977; 20759; 21047; -20977; 19057; 21047; -20977; 17355; 21047; -20977; 15653; 21047; -20977; 13951; 21047; -20977; 12249; 21047; -20977; 10547; 21047; -20977; 8845; 21047; -20977; 7143; 21047; -20977; 5441; 21047; -20977; 3738; 21047; -20977; 2036; 21047; -20977; 334; 21047; -20977; -1368; 21047; -20977; -3070; 21047; -20977; -4772; 21047; -20977; -6474; 21047; -20977; -8176; 21047; -20977; -9878; 21047; -20977; -11580; 21047; -20977; -13282; 21047; -20977; -14984; 21047; -20977; -16686; 21047; -20977; -18389; 21047; -20977; -20091; 21047; -20977; -21793; 21047; -20977; -23495; 21047; -20977; -25197; 21047; -20977; -26899; 21047; -20977; -28601; 21047; -20977; -30303; 21047; -20977; -32005; 21047; -20977; -33707; 21047; -20977; -35409; 21047; -20977; -37111; 21047; -20977; -38813; 21047; -20977; -40516; 21047; -20977; -42218; 21047; -20977; -43920; 21047; -20977; -45622; 21047; -20977; -47324; 21047; -20977; -49026; 21047; -20977; -50728];
  [32685; -20907; 49842; 32685; -20907; 48140; 32685; -20907; 46438; 32685; -20907; 44736; 32685; -20907; 43034; 32685; -20907; 41332; 32685; -20907; 39630; 32685; -20907; 37928; 32685; -20907; 36226; 32685; -20907; 34524; 32685; -20907; 32822; 32685; -20907; 31120; 32685; -20907; 29418; 32685; -20907; 27715; 32685; -20907; 26013; 32685; -20907; 24311; 32685; -20907; 22609; 32685; -20907; 20907; 32685; -20907; 19205; 32685; -20907; 17503; 32685; -20907; 15801; 32685; -20907; 14099; 32685; -20907; 12397; 32685; -20907; 10695; 32685; -20907; 8993; 32685; -20907; 7291; 32685; -20907; 5589; 32685; -20907; 3886; 32685; -20907; 2184; 32685; -20907; 482; 32685; -20907; -1220; 32685; -20907; -2922; 32685; -20907; -4624; 32685; -20907; -6326; 32685; -20907; -8028; 32685; -20907; -9730; 32685; -20907; -11432; 32685; -20907; -13134; 32685; -20907; -14836; 32685; -20907; -16538; 32685; -20907; -18241; 32685; -20907; -19943; 32685; -20907; -21645; 32685; -20907; -23347; 32685; -20907; -25049; 32685; -20907; -26751; 32685; -20907; -28453; 32685; -20907; -30155; 32685; -20907; -31857; 32685; -20907; -33559; 32685; -20907; -35261; 32685; -20907; -36963; 32685; -20907; -38665; 32685; -20907; -40368; 32685; -20907; -42070; 32685; -20907; -43772; 32685; -20907; -45474; 32685; -20907; -47176; 32685; -20907; -48878; 32685; -20907; -50580];
  [44360; -19416; 51667; 44360; -19412; 49965; 44363; -19408; 48263; 44366; -19404; 46561; 44370; -19402; 44859; 44375; -19401; 43157; 44380; -19401; 41455; 44385; -19402; 39753; 44389; -19404; 38051; 44393; -19408; 36349; 44396; -19412; 34647; 44396; -19417; 32945; 44395; -19422; 31243; 44392; -19426; 29540; 44388; -19429; 27838; 44384; -19431; 26136; 44380; -19431; 24434; 44375; -19429; 22732; 44372; -19426; 21030; 44372; -19421; 19328; 44375; -19417; 17626; 44380; -19416; 15924; 44385; -19418; 14222; 44388; -19422; 12520; 44392; -19425; 10818; 44395; -19429; 9116; 44396; -19434; 7414; 44396; -19438; 5711; 44394; -19443; 4009; 44392; -19447; 2307; 44389; -19450; 605; 44385; -19452; -1097; 44380; -19452; -2799; 44375; -19452; -4501; 44371; -19452; -6203; 44366; -19452; -7905; 44362; -19451; -9607; 44358; -19449; -11309; 44354; -19446; -13011; 44350; -19443; -14713; 44347; -19440; -16416; 44344; -19435; -18118; 44343; -19430; -19820; 44343; -19425; -21522; 44346; -19421; -23224; 44350; -19418; -24926; 44355; -19416; -26628; 44359; -19418; -28130; 44365; -19420; -30032; 44368; -19423; -31534; 44372; -19427; -33436; 44375; -19431; -35138; 44378; -19434; -36840; 44381; -19438; -38543; 44385; -19442; -40245; 44389; -19444; -41746; 44393; -19447; -43649; 44396; -19449; -45151; 44400; -19448; -47053; 44405; -19446; -48755];
  [-49243; -23016; 49760; -49243; -23016; 48058; -49243; -23016; 46356; -49243; -23016; 44654; -49243; -23016; 42952; -49243; -23016; 41250; -49243; -23016; 39548; -49243; -23016; 37846; -49243; -23016; 36144; -49243; -23016; 34442; -49243; -23016; 32740; -49243; -23016; 31038; -49243; -23016; 29336; -49243; -23016; 27633; -49243; -23016; 25931; -49243; -23016; 24229; -49243; -23016; 22527; -49243; -23016; 20825; -49243; -23016; 19123; -49243; -23016; 17421; -49243; -23016; 15719; -49243; -23016; 14017; -49243; -23016; 12315; -49243; -23016; 10613; -49243; -23016; 8911; -49243; -23016; 7209; -49243; -23016; 5507; -49243; -23016; 3804; -49243; -23016; 2102; -49243; -23016; 400; -49243; -23016; -1302; -49243; -23016; -3004; -49243; -23016; -4706; -49243; -23016; -6408; -49243; -23016; -8110; -49243; -23016; -9812; -49243; -23016; -11514; -49243; -23016; -13216; -49243; -23016; -14918; -49243; -23016; -16620; -49243; -23016; -18323; -49243; -23016; -20025; -49243; -23016; -21727; -49243; -23016; -23429; -49243; -23016; -25131; -49243; -23016; -26833; -49243; -23016; -28535; -49243; -23016; -30237; -49243; -23016; -31939; -49243; -23016; -33641; -49243; -23016; -35343; -49243; -23016; -37045; -49243; -23016; -38747; -49243; -23016; -40450; -49243; -23016; -42152; -49243; -23016; -43854; -49243; -23016; -45556; -49243; -23016; -47258; -49243; -23016; -48960; -49243; -23016; -50662];
  [-36893; -21023; 50053; -36893; -21023; 48351; -36893; -21023; 46649; -36893; -21023; 44947; -36893; -21023; 43245; -36893; -21023; 41543; -36893; -21023; 39841; -36893; -21023; 38139; -36893; -21023; 36437; -36893; -21023; 34735; -36893; -21023; 33033; -36893; -21023; 31331; -36893; -21023; 29629; -36893; -21023; 27926; -36893; -21023; 26224; -36893; -21023; 24522; -36893; -21023; 22820; -36893; -21023; 21118; -36893; -21023; 19416; -36893; -21023; 17714; -36893; -21023; 16012; -36893; -21023; 14310; -36893; -21023; 12608; -36893; -21023; 10906; -36893; -21023; 9204; -36893; -21023; 7502; -36893; -21023; 5800; -36893; -21023; 4097; -36893; -21023; 2395; -36893; -21023; 693; -36893; -21023; -1009; -36893; -21023; -2711; -36893; -21023; -4413; -36893; -21023; -6115; -36893; -21023; -7817; -36893; -21023; -9519; -36893; -21023; -11221; -36893; -21023; -12923; -36893; -21023; -14625; -36893; -21023; -16327; -36893; -21023; -18030; -36893; -21023; -19732; -36893; -21023; -21434; -36893; -21023; -23136; -36893; -21023; -24838; -36893; -21023; -26540; -36893; -21023; -28242; -36893; -21023; -29944; -36893; -21023; -31646; -36893; -21023; -33348; -36893; -21023; -35050; -36893; -21023; -36752; -36893; -21023; -38454; -36893; -21023; -40157; -36893; -21023; -41859; -36893; -21023; -43561; -36893; -21023; -45263; -36893; -21023; -46965; -36893; -21023; -48667; -36893; -21023; -50369];
  [-24565; -19049; 50148; -24565; -19049; 48446; -24565; -19049; 46744; -24565; -19049; 45042; -24565; -19049; 43340; -24565; -19049; 41638; -24565; -19049; 39936; -24565; -19049; 38234; -24565; -19049; 36532; -24565; -19049; 34830; -24565; -19049; 33128; -24565; -19049; 31426; -24565; -19049; 29723; -24565; -19049; 28021; -24565; -19049; 26319; -24565; -19049; 24617; -24565; -19049; 22915; -24565; -19049; 21213; -24565; -19049; 19511; -24565; -19049; 17809; -24565; -19049; 16107; -24565; -19049; 14405; -24565; -19049; 12703; -24565; -19049; 11001; -24565; -19049; 9299; -24565; -19049; 7596; -24565; -19049; 5894; -24565; -19049; 4192; -24565; -19049; 2490; -24565; -19049; 788; -24565; -19049; -914; -24565; -19049; -2603; -24565; -19049; -4293; -24565; -19049; -5995; -24565; -19049; -7697; -24565; -19049; -9399; -24565; -19049; -11088; -24565; -19049; -12790; -24565; -19049; -14492; -24565; -19049; -16195; -24565; -19049; -17897; -24565; -19049; -19599; -24565; -19049; -21301; -24565; -19049; -23003; -24565; -19049; -24705; -24565; -19049; -26407; -24565; -19049; -28109; -24565; -19049; -29811; -24565; -19049; -31513; -24565; -19049; -33215; -24565; -19049; -34917; -24565; -19049; -36619; -24565; -19049; -38322; -24565; -19049; -40024; -24565; -19049; -41726; -24565; -19049; -43415; -24565; -19049; -45107; -24565; -19049; -46797; -24565; -19049; -48499; -24565; -19049; -50201];
  [-12177; -17103; 50227; -12177; -17103; 48525; -12177; -17103; 46823; -12177; -17103; 45121; -12177; -17103; 43419; -12177; -17103; 41717; -12177; -17103; 40015; -12177; -17103; 38313; -12177; -17103; 36611; -12177; -17103; 34909; -12177; -17103; 33207; -12177; -17103; 31505; -12177; -17103; 29803; -12177; -17103; 28100; -12177; -17103; 26398; -12177; -17103; 24696; -12177; -17103; 22994; -12177; -17103; 21292; -12177; -17103; 19590; -12177; -17103; 17888; -12177; -17103; 16186; -12177; -17103; 14484; -12177; -17103; 12782; -12177; -17103; 11080; -12177; -17103; 9378; -12177; -17103; 7676; -12177; -17103; 5973; -12177; -17103; 4271; -12177; -17103; 2569; -12177; -17103; 867; -12177; -17103; -835; -12177; -17103; -2537; -12177; -17103; -4239; -12177; -17103; -5941; -12177; -17103; -7643; -12177; -17103; -9345; -12177; -17103; -11047; -12177; -17103; -12749; -12177; -17103; -14451; -12177; -17103; -16154; -12177; -17103; -17856; -12177; -17103; -19558; -12177; -17103; -21260; -12177; -17103; -22962; -12177; -17103; -24664; -12177; -17103; -26366; -12177; -17103; -28068; -12177; -17103; -29757; -12177; -17103; -31459; -12177; -17103; -33149; -12177; -17103; -34851; -12177; -17103; -36553; -12177; -17103; -38255; -12177; -17103; -39958; -12177; -17103; -41660; -12177; -17103; -43348; -12177; -17103; -45050; -12177; -17103; -46752; -12177; -17103; -48454; -12177; -17103; -50156];
  [171; -15063; 49725; 171; -15063; 48023; 171; -15063; 46321; 171; -15063; 44619; 171; -15063; 42917; 171; -15063; 41215; 171; -15063; 39513; 171; -15063; 37811; 171; -15063; 36109; 171; -15063; 34407; 171; -15063; 32705; 171; -15063; 31003; 171; -15063; 29301; 171; -15063; 27598; 171; -15063; 25896; 171; -15063; 24194; 171; -15063; 22492; 171; -15063; 20790; 171; -15063; 19088; 171; -15063; 17386; 171; -15063; 15684; 171; -15063; 13982; 171; -15063; 12280; 171; -15063; 10578; 171; -15063; 8876; 171; -15063; 7174; 171; -15063; 5472; 171; -15063; 3769; 171; -15063; 2067; 171; -15063; 365; 171; -15063; -1337; 171; -15063; -3039; 171; -15063; -4741; 171; -15063; -6443; 171; -15063; -8145; 171; -15063; -9847; 171; -15063; -11549; 171; -15063; -13251; 171; -15063; -14953; 171; -15063; -16655; 171; -15063; -18358; 171; -15063; -20060; 171; -15063; -21762; 171; -15063; -23464; 171; -15063; -25166; 171; -15063; -26868; 171; -15063; -28570; 171; -15063; -30272; 171; -15063; -31974; 171; -15063; -33676; 171; -15063; -35378; 171; -15063; -37080; 171; -15063; -38782; 171; -15063; -40485; 171; -15063; -42187; 171; -15063; -43889; 171; -15063; -45591; 171; -15063; -47293; 171; -15063; -48995; 171; -15063; -50697];
  [12497; -13125; 49365; 12497; -13125; 47663; 12497; -13125; 45961; 12497; -13125; 44259; 12497; -13125; 42557; 12497; -13125; 40855; 12497; -13125; 39153; 12497; -13125; 37451; 12497; -13125; 35749; 12497; -13125; 34047; 12497; -13125; 32345; 12497; -13125; 30643; 12497; -13125; 28941; 12497; -13125; 27238; 12497; -13125; 25536; 12497; -13125; 23834; 12497; -13125; 22132; 12497; -13125; 20430; 12497; -13125; 18728; 12497; -13125; 17026; 12497; -13125; 15324; 12497; -13125; 13622; 12497; -13125; 11920; 12497; -13125; 10218; 12497; -13125; 8516; 12497; -13125; 6814; 12497; -13125; 5112; 12497; -13125; 3409; 12497; -13125; 1707; 12497; -13125; 5; 12497; -13125; -1697; 12497; -13125; -3399; 12497; -13125; -5101; 12497; -13125; -6803; 12497; -13125; -8505; 12497; -13125; -10207; 12497; -13125; -11909; 12497; -13125; -13611; 12497; -13125; -15313; 12497; -13125; -17015; 12497; -13125; -18718; 12497; -13125; -20420; 12497; -13125; -22122; 12497; -13125; -23824; 12497; -13125; -25526; 12497; -13125; -27228; 12497; -13125; -28930; 12497; -13125; -30632; 12497; -13125; -32334; 12497; -13125; -34036; 12497; -13125; -35738; 12497; -13125; -37440; 12497; -13125; -39142; 12497; -13125; -40845; 12497; -13125; -42547; 12497; -13125; -44249; 12497; -13125; -45951; 12497; -13125; -47653; 12497; -13125; -49355; 12497; -13125; -51057];
  [24815; -11187; 49834; 24815; -11187; 48101; 24815; -11187; 46399; 24815; -11187; 44697; 24815; -11187; 42995; 24815; -11187; 41293; 24815; -11187; 39591; 24815; -11187; 37889; 24815; -11187; 36187; 24815; -11187; 34485; 24815; -11187; 32783; 24815; -11187; 31081; 24815; -11187; 29379; 24815; -11187; 27676; 24815; -11187; 25974; 24815; -11187; 24272; 24815; -11187; 22570; 24815; -11187; 20868; 24815; -11187; 19166; 24815; -11187; 17464; 24815; -11187; 15762; 24815; -11187; 14060; 24815; -11187; 12358; 24815; -11187; 10656; 24815; -11187; 8954; 24815; -11187; 7252; 24815; -11187; 5550; 24815; -11187; 3847; 24815; -11187; 2145; 24815; -11187; 443; 24815; -11187; -1259; 24815; -11187; -2961; 24815; -11187; -4663; 24815; -11187; -6365; 24815; -11187; -8067; 24815; -11187; -9769; 24815; -11187; -11471; 24815; -11187; -13173; 24815; -11187; -14875; 24815; -11187; -16577; 24815; -11187; -18280; 24815; -11187; -19982; 24815; -11187; -21684; 24815; -11187; -23386; 24815; -11187; -25088; 24815; -11187; -26790; 24815; -11187; -28492; 24815; -11187; -30194; 24815; -11187; -31896; 24815; -11187; -33598; 24815; -11187; -35300; 24815; -11187; -37002; 24815; -11187; -38704; 24815; -11187; -40407; 24815; -11187; -42109; 24815; -11187; -43811; 24815; -11187; -45513; 24815; -11187; -47215; 24815; -11187; -48917; 24815; -11187; -50619];
  [37156; -9218; 50158; 37156; -9218; 48556; 37156; -9218; 46754; 37156; -9218; 45152; 37156; -9218; 43350; 37156; -9218; 41748; 37156; -9218; 39946; 37156; -9218; 38344; 37156; -9218; 36542; 37156; -9218; 34940; 37156; -9218; 33138; 37156; -9218; 31536; 37156; -9218; 29733; 37156; -9218; 28131; 37156; -9218; 26329; 37156; -9218; 24727; 37156; -9218; 22925; 37156; -9218; 21323; 37156; -9218; 19521; 37156; -9218; 17919; 37156; -9218; 16117; 37156; -9218; 14515; 37156; -9218; 12713; 37156; -9218; 11111; 37156; -9218; 9309; 37156; -9218; 7707; 37156; -9218; 5904; 37156; -9218; 4302; 37156; -9218; 2500; 37156; -9218; 898; 37156; -9218; -904; 37156; -9218; -2506; 37156; -9218; -4308; 37156; -9218; -5910; 37156; -9218; -7712; 37156; -9218; -9314; 37156; -9218; -11116; 37156; -9218; -12718; 37156; -9218; -14521; 37156; -9218; -16122; 37156; -9218; -17925; 37156; -9218; -19527; 37156; -9218; -21329; 37156; -9218; -22931; 37156; -9218; -24733; 37156; -9218; -26335; 37156; -9218; -28137; 37156; -9218; -29739; 37156; -9218; -31541; 37156; -9218; -33143; 37156; -9218; -34945; 37156; -9218; -36547; 37156; -9218; -38350; 37156; -9218; -39952; 37156; -9218; -41754; 37156; -9218; -43356; 37156; -9218; -45158; 37156; -9218; -46760; 37156; -9218; -48562; 37156; -9218; -50164];
  [50043; -5845; 50185; 50043; -5845; 48483; 50043; -5845; 46781; 50043; -5845; 45079; 50043; -5845; 43377; 50043; -5845; 41675; 50043; -5845; 39973; 50043; -5845; 38271; 50043; -5845; 36569; 50043; -5845; 34867; 50043; -5845; 33165; 50043; -5845; 31463; 50043; -5845; 29761; 50043; -5845; 28058; 50043; -5845; 26356; 50043; -5845; 24654; 50043; -5845; 22952; 50043; -5845; 21250; 50043; -5845; 19548; 50043; -5845; 17846; 50043; -5845; 16144; 50043; -5845; 14442; 50043; -5845; 12740; 50043; -5845; 11038; 50043; -5845; 9336; 50043; -5845; 7634; 50043; -5845; 5932; 50043; -5845; 4229; 50043; -5845; 2527; 50043; -5845; 825; 50043; -5845; -877; 50043; -5845; -2579; 50043; -5845; -4281; 50043; -5845; -5983; 50043; -5845; -7685; 50043; -5845; -9387; 50043; -5845; -11089; 50043; -5845; -12791; 50043; -5845; -14493; 50043; -5845; -16195; 50043; -5845; -17898; 50043; -5845; -19600; 50043; -5845; -21302; 50043; -5845; -23004; 50043; -5845; -24706; 50043; -5845; -26408; 50043; -5845; -28110; 50043; -5845; -29812; 50043; -5845; -31514; 50043; -5845; -33216; 50043; -5845; -34918; 50043; -5845; -36620; 50043; -5845; -38322; 50043; -5845; -40025; 50043; -5845; -41727; 50043; -5845; -43429; 50043; -5845; -45131; 50043; -5845; -46833; 50043; -5845; -48535; 50043; -5845; -50237];
  [-57090; -12514; 49960; -57090; -12514; 48258; -57090; -12514; 46556; -57090; -12514; 44854; -57090; -12514; 43152; -57090; -12514; 41450; -57090; -12514; 39748; -57090; -12514; 38046; -57090; -12514; 36344; -57090; -12514; 34642; -57090; -12514; 32940; -57090; -12514; 31238; -57090; -12514; 29536; -57090; -12514; 27833; -57090; -12514; 26131; -57090; -12514; 24429; -57090; -12514; 22727; -57090; -12514; 21025; -57090; -12514; 19323; -57090; -12514; 17621; -57090; -12514; 15919; -57090; -12514; 14217; -57090; -12514; 12515; -57090; -12514; 10813; -57090; -12514; 9111; -57090; -12514; 7409; -57090; -12514; 5707; -57090; -12514; 4004; -57090; -12514; 2302; -57090; -12514; 600; -57090; -12514; -1102; -57090; -12514; -2804; -57090; -12514; -4506; -57090; -12514; -6208; -57090; -12514; -7910; -57090; -12514; -9612; -57090; -12514; -11314; -57090; -12514; -13016; -57090; -12514; -14718; -57090; -12514; -16420; -57090; -12514; -18123; -57090; -12514; -19825; -57090; -12514; -21527; -57090; -12514; -23229; -57090; -12514; -24931; -57090; -12514; -26633; -57090; -12514; -28335; -57090; -12514; -30037; -57090; -12514; -31739; -57090; -12514; -33441; -57090; -12514; -35143; -57090; -12514; -36845; -57090; -12514; -38547; -57090; -12514; -40250; -57090; -12514; -41952; -57090; -12514; -43654; -57090; -12514; -45356; -57090; -12514; -47058; -57090; -12514; -48760; -57090; -12514; -50462];
  [-44774; -11313; 50067; -44774; -11313; 48365; -44774; -11313; 46663; -44774; -11313; 44961; -44774; -11313; 43259; -44774; -11313; 41557; -44774; -11313; 39855; -44774; -11313; 38153; -44774; -11313; 36451; -44774; -11313; 34749; -44774; -11313; 33047; -44774; -11313; 31345; -44774; -11313; 29643; -44774; -11313; 27940; -44774; -11313; 26238; -44774; -11313; 24536; -44774; -11313; 22834; -44774; -11313; 21132; -44774; -11313; 19430; -44774; -11313; 17728; -44774; -11313; 16026; -44774; -11313; 14324; -44774; -11313; 12622; -44774; -11313; 10920; -44774; -11313; 9218; -44774; -11313; 7516; -44774; -11313; 5814; -44774; -11313; 4111; -44774; -11313; 2409; -44774; -11313; 707; -44774; -11313; -995; -44774; -11313; -2697; -44774; -11313; -4399; -44774; -11313; -6101; -44774; -11313; -7803; -44774; -11313; -9505; -44774; -11313; -11207; -44774; -11313; -12909; -44774; -11313; -14611; -44774; -11313; -16313; -44774; -11313; -18016; -44774; -11313; -19718; -44774; -11313; -21420; -44774; -11313; -23122; -44774; -11313; -24824; -44774; -11313; -26526; -44774; -11313; -28228; -44774; -11313; -29930; -44774; -11313; -31632; -44774; -11313; -33334; -44774; -11313; -35036; -44774; -11313; -36738; -44774; -11313; -38440; -44774; -11313; -40143; -44774; -11313; -41845; -44774; -11313; -43547; -44774; -11313; -45249; -44774; -11313; -46951; -44774; -11313; -48653; -44774; -11313; -50355];
  [-32439; -9343; 50013; -32439; -9343; 48311; -32439; -9343; 46609; -32439; -9343; 44907; -32439; -9343; 43205; -32439; -9343; 41503; -32439; -9343; 39801; -32439; -9343; 38099; -32439; -9343; 36397; -32439; -9343; 34695; -32439; -9343; 32993; -32439; -9343; 31291; -32439; -9343; 29589; -32439; -9343; 27886; -32439; -9343; 26184; -32439; -9343; 24482; -32439; -9343; 22780; -32439; -9343; 21078; -32439; -9343; 19376; -32439; -9343; 17674; -32439; -9343; 15972; -32439; -9343; 14270; -32439; -9343; 12568; -32439; -9343; 10866; -32439; -9343; 9164; -32439; -9343; 7462; -32439; -9343; 5760; -32439; -9343; 4057; -32439; -9343; 2355; -32439; -9343; 653; -32439; -9343; -1049; -32439; -9343; -2751; -32439; -9343; -4453; -32439; -9343; -6155; -32439; -9343; -7857; -32439; -9343; -9559; -32439; -9343; -11261; -32439; -9343; -12963; -32439; -9343; -14665; -32439; -9343; -16367; -32439; -9343; -18070; -32439; -9343; -19772; -32439; -9343; -21474; -32439; -9343; -23176; -32439; -9343; -24878; -32439; -9343; -26580; -32439; -9343; -28282; -32439; -9343; -29984; -32439; -9343; -31686; -32439; -9343; -33388; -32439; -9343; -35090; -32439; -9343; -36792; -32439; -9343; -38494; -32439; -9343; -40197; -32439; -9343; -41899; -32439; -9343; -43601; -32439; -9343; -45303; -32439; -9343; -47005; -32439; -9343; -48707; -32439; -9343; -50409];
  [-20055; -7403; 52342; -20055; -7403; 50640; -20055; -7403; 48938; -20055; -7403; 47236; -20055; -7403; 45534; -20055; -7403; 43832; -20055; -7403; 42130; -20055; -7403; 40428; -20055; -7403; 38726; -20055; -7403; 37024; -20055; -7403; 35322; -20055; -7403; 33620; -20055; -7403; 31918; -20055; -7403; 30215; -20055; -7403; 28513; -20055; -7403; 26811; -20055; -7403; 25109; -20055; -7403; 23407; -20055; -7403; 21705; -20055; -7403; 20003; -20055; -7403; 18301; -20055; -7403; 16599; -20055; -7403; 14897; -20055; -7403; 13195; -20055; -7403; 11493; -20055; -7403; 9791; -20055; -7403; 8089; -20055; -7403; 6386; -20055; -7403; 4684; -20055; -7403; 2982; -20055; -7403; 1280; -20055; -7403; -422; -20055; -7403; -2124; -20055; -7403; -3826; -20055; -7403; -5528; -20055; -7403; -7230; -20055; -7403; -8932; -20055; -7403; -10634; -20055; -7403; -12336; -20055; -7403; -14038; -20055; -7403; -15741; -20055; -7403; -17443; -20055; -7403; -19145; -20055; -7403; -20847; -20055; -7403; -22549; -20055; -7403; -24251; -20055; -7403; -25953; -20055; -7403; -27655; -20055; -7403; -29357; -20055; -7403; -31059; -20055; -7403; -32761; -20055; -7403; -34463; -20055; -7403; -36165; -20055; -7403; -37868; -20055; -7403; -39570; -20055; -7403; -41272; -20055; -7403; -42974; -20055; -7403; -44676; -20055; -7403; -46378; -20055; -7403; -48080];
  [-7780; -5433; 50270; -7780; -5433; 48568; -7780; -5433; 46866; -7780; -5433; 45164; -7780; -5433; 43462; -7780; -5433; 41760; -7780; -5433; 40058; -7780; -5433; 38356; -7780; -5433; 36654; -7780; -5433; 34952; -7780; -5433; 33250; -7780; -5433; 31548; -7780; -5433; 29846; -7780; -5433; 28143; -7780; -5433; 26441; -7780; -5433; 24739; -7780; -5433; 23037; -7780; -5433; 21335; -7780; -5433; 19633; -7780; -5433; 17931; -7780; -5433; 16229; -7780; -5433; 14527; -7780; -5433; 12825; -7780; -5433; 11123; -7780; -5433; 9421; -7780; -5433; 7719; -7780; -5433; 6017; -7780; -5433; 4314; -7780; -5433; 2612; -7780; -5433; 910; -7780; -5433; -792; -7780; -5433; -2494; -7780; -5433; -4196; -7780; -5433; -5898; -7780; -5433; -7600; -7780; -5433; -9302; -7780; -5433; -11004; -7780; -5433; -12706; -7780; -5433; -14408; -7780; -5433; -16110; -7780; -5433; -17813; -7780; -5433; -19515; -7780; -5433; -21217; -7780; -5433; -22919; -7780; -5433; -24621; -7780; -5433; -26323; -7780; -5433; -28025; -7780; -5433; -29727; -7780; -5433; -31429; -7780; -5433; -33131; -7780; -5433; -34833; -7780; -5433; -36535; -7780; -5433; -38237; -7780; -5433; -39940; -7780; -5433; -41642; -7780; -5433; -43344; -7780; -5433; -45046; -7780; -5433; -46748; -7780; -5433; -48450; -7780; -5433; -50152];
  [4629; -3488; 50097; 4629; -3488; 48395; 4629; -3488; 46693; 4629; -3488; 44991; 4629; -3488; 43289; 4629; -3488; 41587; 4629; -3488; 39885; 4629; -3488; 38183; 4629; -3488; 36481; 4629; -3488; 34779; 4629; -3488; 33077; 4629; -3488; 31375; 4629; -3488; 29673; 4629; -3488; 27970; 4629; -3488; 26268; 4629; -3488; 24566; 4629; -3488; 22864; 4629; -3488; 21162; 4629; -3488; 19460; 4629; -3488; 17758; 4629; -3488; 16056; 4629; -3488; 14354; 4629; -3488; 12652; 4629; -3488; 10950; 4629; -3488; 9248; 4629; -3488; 7546; 4629; -3488; 5844; 4629; -3488; 4141; 4629; -3488; 2439; 4629; -3488; 737; 4629; -3488; -965; 4629; -3488; -2667; 4629; -3488; -4369; 4629; -3488; -6071; 4629; -3488; -7773; 4629; -3488; -9475; 4629; -3488; -11177; 4629; -3488; -12879; 4629; -3488; -14581; 4629; -3488; -16283; 4629; -3488; -17986; 4629; -3488; -19688; 4629; -3488; -21390; 4629; -3488; -23092; 4629; -3488; -24794; 4629; -3488; -26496; 4629; -3488; -28198; 4629; -3488; -29900; 4629; -3488; -31602; 4629; -3488; -33304; 4629; -3488; -35006; 4629; -3488; -36708; 4629; -3488; -38410; 4629; -3488; -40113; 4629; -3488; -41815; 4629; -3488; -43517; 4629; -3488; -45219; 4629; -3488; -46921; 4629; -3488; -48623; 4629; -3488; -50325];
  [19434; -3092; 50409; 19434; -3092; 48707; 19434; -3092; 47005; 19434; -3092; 45303; 19434; -3092; 43601; 19434; -3092; 41899; 19434; -3092; 40197; 19434; -3092; 38495; 19434; -3092; 36793; 19434; -3092; 35091; 19434; -3092; 33389; 19434; -3092; 31687; 19434; -3092; 29985; 19434; -3092; 28282; 19434; -3092; 26580; 19434; -3092; 24878; 19434; -3092; 23176; 19434; -3092; 21474; 19434; -3092; 19772; 19434; -3092; 18070; 19434; -3092; 16368; 19434; -3092; 14666; 19434; -3092; 12964; 19434; -3092; 11262; 19434; -3092; 9560; 19434; -3092; 7858; 19434; -3092; 6156; 19434; -3092; 4453; 19434; -3092; 2751; 19434; -3092; 1049; 19434; -3092; -653; 19434; -3092; -2355; 19434; -3092; -4057; 19434; -3092; -5759; 19434; -3092; -7461; 19434; -3092; -9163; 19434; -3092; -10865; 19434; -3092; -12567; 19434; -3092; -14269; 19434; -3092; -15971; 19434; -3092; -17674; 19434; -3092; -19376; 19434; -3092; -21078; 19434; -3092; -22780; 19434; -3092; -24482; 19434; -3092; -26184; 19434; -3092; -27886; 19434; -3092; -29588; 19434; -3092; -31290; 19434; -3092; -32992; 19434; -3092; -34694; 19434; -3092; -36396; 19434; -3092; -38098; 19434; -3092; -39801; 19434; -3092; -41503; 19434; -3092; -43205; 19434; -3092; -44907; 19434; -3092; -46609; 19434; -3092; -48311; 19434; -3092; -50013];
  [29290; 520; 49140; 29290; 520; 47438; 29290; 520; 45736; 29290; 520; 44034; 29290; 520; 42332; 29290; 520; 40630; 29290; 520; 38928; 29290; 520; 37226; 29290; 520; 35524; 29290; 520; 33822; 29290; 520; 32120; 29290; 520; 30418; 29290; 520; 28716; 29290; 520; 27013; 29290; 520; 25311; 29290; 520; 23609; 29290; 520; 21907; 29290; 520; 20205; 29290; 520; 18503; 29290; 520; 16801; 29290; 520; 15099; 29290; 520; 13397; 29290; 520; 11695; 29290; 520; 9993; 29290; 520; 8291; 29290; 520; 6589; 29290; 520; 4887; 29290; 520; 3184; 29290; 520; 1482; 29290; 520; -220; 29290; 520; -1922; 29290; 520; -3624; 29290; 520; -5326; 29290; 520; -7028; 29290; 520; -8730; 29290; 520; -10432; 29290; 520; -12134; 29290; 520; -13836; 29290; 520; -15538; 29290; 520; -17240; 29290; 520; -18943; 29290; 520; -20645; 29290; 520; -22347; 29290; 520; -24049; 29290; 520; -25751; 29290; 520; -27453; 29290; 520; -29155; 29290; 520; -30857; 29290; 520; -32559; 29290; 520; -34261; 29290; 520; -35963; 29290; 520; -37665; 29290; 520; -39367; 29290; 520; -41070; 29290; 520; -42772; 29290; 520; -44474; 29290; 520; -46176; 29290; 520; -47878; 29290; 520; -49580; 29290; 520; -51282];
  [41181; 1300; 50173; 41181; 1300; 48471; 41181; 1300; 46769; 41181; 1300; 45067; 41181; 1300; 43365; 41181; 1300; 41663; 41181; 1300; 39961; 41181; 1300; 38259; 41181; 1300; 36557; 41181; 1300; 34855; 41181; 1300; 33153; 41181; 1300; 31451; 41181; 1300; 29749; 41181; 1300; 28046; 41181; 1300; 26344; 41181; 1300; 24642; 41181; 1300; 22940; 41181; 1300; 21238; 41181; 1300; 19536; 41181; 1300; 17834; 41181; 1300; 16132; 41181; 1300; 14430; 41181; 1300; 12728; 41181; 1300; 11026; 41181; 1300; 9324; 41181; 1300; 7622; 41181; 1300; 5920; 41181; 1300; 4217; 41181; 1300; 2515; 41181; 1300; 813; 41181; 1300; -889; 41181; 1300; -2591; 41181; 1300; -4293; 41181; 1300; -5995; 41181; 1300; -7697; 41181; 1300; -9399; 41181; 1300; -11101; 41181; 1300; -12803; 41181; 1300; -14505; 41181; 1300; -16207; 41181; 1300; -17910; 41181; 1300; -19612; 41181; 1300; -21314; 41181; 1300; -23016; 41181; 1300; -24718; 41181; 1300; -26420; 41181; 1300; -28122; 41181; 1300; -29824; 41181; 1300; -31526; 41181; 1300; -33228; 41181; 1300; -34930; 41181; 1300; -36632; 41181; 1300; -38334; 41181; 1300; -40037; 41181; 1300; -41739; 41181; 1300; -43441; 41181; 1300; -45143; 41181; 1300; -46845; 41181; 1300; -48547; 41181; 1300; -50249];
  [54407; 5589; 50279; 54407; 5589; 48576; 54407; 5589; 46874; 54407; 5589; 45172; 54407; 5589; 43470; 54407; 5589; 41768; 54407; 5589; 40066; 54407; 5589; 38364; 54407; 5589; 36662; 54407; 5589; 34960; 54407; 5589; 33258; 54407; 5589; 31556; 54407; 5589; 29854; 54407; 5589; 28152; 54407; 5589; 26450; 54407; 5589; 24747; 54407; 5589; 23045; 54407; 5589; 21343; 54407; 5589; 19641; 54407; 5589; 17939; 54407; 5589; 16237; 54407; 5589; 14535; 54407; 5589; 12833; 54407; 5589; 11131; 54407; 5589; 9429; 54407; 5589; 7727; 54407; 5589; 6025; 54407; 5589; 4323; 54407; 5589; 2620; 54407; 5589; 918; 54407; 5589; -784; 54407; 5589; -2486; 54407; 5589; -4188; 54407; 5589; -5890; 54407; 5589; -7592; 54407; 5589; -9294; 54407; 5589; -10996; 54407; 5589; -12698; 54407; 5589; -14400; 54407; 5589; -16102; 54407; 5589; -17804; 54407; 5589; -19507; 54407; 5589; -21209; 54407; 5589; -22911; 54407; 5589; -24613; 54407; 5589; -26315; 54407; 5589; -28017; 54407; 5589; -29719; 54407; 5589; -31421; 54407; 5589; -33123; 54407; 5589; -34825; 54407; 5589; -36527; 54407; 5589; -38229; 54407; 5589; -39931; 54407; 5589; -41634; 54407; 5589; -43336; 54407; 5589; -45038; 54407; 5589; -46740; 54407; 5589; -48442; 54407; 5589; -50214];
  [-52663; -1560; 50267; -52663; -1560; 48564; -52663; -1560; 46862; -52663; -1560; 45160; -52663; -1560; 43458; -52663; -1560; 41756; -52663; -1560; 40054; -52663; -1560; 38352; -52663; -1560; 36650; -52663; -1560; 34948; -52663; -1560; 33246; -52663; -1560; 31544; -52663; -1560; 29842; -52663; -1560; 28140; -52663; -1560; 26437; -52663; -1560; 24735; -52663; -1560; 23033; -52663; -1560; 21331; -52663; -1560; 19629; -52663; -1560; 17927; -52663; -1560; 16225; -52663; -1560; 14523; -52663; -1560; 12821; -52663; -1560; 11119; -52663; -1560; 9417; -52663; -1560; 7715; -52663; -1560; 6013; -52663; -1560; 4310; -52663; -1560; 2608; -52663; -1560; 906; -52663; -1560; -796; -52663; -1560; -2498; -52663; -1560; -4200; -52663; -1560; -5902; -52663; -1560; -7604; -52663; -1560; -9306; -52663; -1560; -11008; -52663; -1560; -12710; -52663; -1560; -14412; -52663; -1560; -16114; -52663; -1560; -17817; -52663; -1560; -19519; -52663; -1560; -21221; -52663; -1560; -22923; -52663; -1560; -24625; -52663; -1560; -26327; -52663; -1560; -28029; -52663; -1560; -29731; -52663; -1560; -31433; -52663; -1560; -33135; -52663; -1560; -34837; -52663; -1560; -36539; -52663; -1560; -38241; -52663; -1560; -39943; -52663; -1560; -41646; -52663; -1560; -43348; -52663; -1560; -45050; -52663; -1560; -46752; -52663; -1560; -48454; -52663; -1560; -50201];
  [-40314; 349; 50180; -40314; 349; 48478; -40314; 349; 46776; -40314; 349; 45074; -40314; 349; 43372; -40314; 349; 41670; -40314; 349; 39968; -40314; 349; 38266; -40314; 349; 36564; -40314; 349; 34862; -40314; 349; 33160; -40314; 349; 31458; -40314; 349; 29756; -40314; 349; 28053; -40314; 349; 26351; -40314; 349; 24649; -40314; 349; 22947; -40314; 349; 21245; -40314; 349; 19543; -40314; 349; 17841; -40314; 349; 16139; -40314; 349; 14437; -40314; 349; 12735; -40314; 349; 11033; -40314; 349; 9331; -40314; 349; 7629; -40314; 349; 5927; -40314; 349; 4224; -40314; 349; 2522; -40314; 349; 820; -40314; 349; -882; -40314; 349; -2584; -40314; 349; -4286; -40314; 349; -5988; -40314; 349; -7690; -40314; 349; -9392; -40314; 349; -11094; -40314; 349; -12796; -40314; 349; -14498; -40314; 349; -16200; -40314; 349; -17903; -40314; 349; -19605; -40314; 349; -21307; -40314; 349; -23009; -40314; 349; -24711; -40314; 349; -26413; -40314; 349; -28115; -40314; 349; -29817; -40314; 349; -31519; -40314; 349; -33221; -40314; 349; -34923; -40314; 349; -36625; -40314; 349; -38327; -40314; 349; -40030; -40314; 349; -41732; -40314; 349; -43434; -40314; 349; -45136; -40314; 349; -46838; -40314; 349; -48540; -40314; 349; -50242];
  [-27953; 2317; 50261; -27953; 2317; 48559; -27953; 2317; 46857; -27953; 2317; 45154; -27953; 2317; 43452; -27953; 2317; 41750; -27953; 2317; 40048; -27953; 2317; 38346; -27953; 2317; 36644; -27953; 2317; 34942; -27953; 2317; 33240; -27953; 2317; 31538; -27953; 2317; 29836; -27953; 2317; 28134; -27953; 2317; 26432; -27953; 2317; 24730; -27953; 2317; 23027; -27953; 2317; 21325; -27953; 2317; 19623; -27953; 2317; 17921; -27953; 2317; 16219; -27953; 2317; 14517; -27953; 2317; 12815; -27953; 2317; 11113; -27953; 2317; 9411; -27953; 2317; 7709; -27953; 2317; 6007; -27953; 2317; 4305; -27953; 2317; 2603; -27953; 2317; 900; -27953; 2317; -802; -27953; 2317; -2504; -27953; 2317; -4206; -27953; 2317; -5908; -27953; 2317; -7610; -27953; 2317; -9312; -27953; 2317; -11014; -27953; 2317; -12716; -27953; 2317; -14418; -27953; 2317; -16120; -27953; 2317; -17822; -27953; 2317; -19524; -27953; 2317; -21226; -27953; 2317; -22929; -27953; 2317; -24631; -27953; 2317; -26333; -27953; 2317; -28035; -27953; 2317; -29737; -27953; 2317; -31439; -27953; 2317; -33141; -27953; 2317; -34843; -27953; 2317; -36545; -27953; 2317; -38247; -27953; 2317; -39949; -27953; 2317; -41651; -27953; 2317; -43353; -27953; 2317; -45056; -27953; 2317; -46758; -27953; 2317; -48640; -27953; 2317; -50342];
  [-15623; 4337; 50084; -15623; 4337; 48381; -15623; 4337; 46679; -15623; 4337; 44977; -15623; 4337; 43275; -15623; 4337; 41573; -15623; 4337; 39871; -15623; 4337; 38169; -15623; 4337; 36467; -15623; 4337; 34765; -15623; 4337; 33063; -15623; 4337; 31361; -15623; 4337; 29659; -15623; 4337; 27957; -15623; 4337; 26254; -15623; 4337; 24552; -15623; 4337; 22850; -15623; 4337; 21148; -15623; 4337; 19446; -15623; 4337; 17744; -15623; 4337; 16042; -15623; 4337; 14340; -15623; 4337; 12638; -15623; 4337; 10936; -15623; 4337; 9234; -15623; 4337; 7532; -15623; 4337; 5830; -15623; 4337; 4127; -15623; 4337; 2425; -15623; 4337; 723; -15623; 4337; -979; -15623; 4337; -2681; -15623; 4337; -4383; -15623; 4337; -6085; -15623; 4337; -7787; -15623; 4337; -9489; -15623; 4337; -11191; -15623; 4337; -12893; -15623; 4337; -14595; -15623; 4337; -16297; -15623; 4337; -17999; -15623; 4337; -19702; -15623; 4337; -21404; -15623; 4337; -23106; -15623; 4337; -24808; -15623; 4337; -26510; -15623; 4337; -28212; -15623; 4337; -29914; -15623; 4337; -31616; -15623; 4337; -33318; -15623; 4337; -35020; -15623; 4337; -36722; -15623; 4337; -38424; -15623; 4337; -40126; -15623; 4337; -41829; -15623; 4337; -43531; -15623; 4337; -45233; -15623; 4337; -46935; -15623; 4337; -48637; -15623; 4337; -50389];
  [-3296; 6244; 49581; -3296; 6244; 47879; -3296; 6244; 46177; -3296; 6244; 44475; -3296; 6244; 42773; -3296; 6244; 41071; -3296; 6244; 39369; -3296; 6244; 37667; -3296; 6244; 35965; -3296; 6244; 34263; -3296; 6244; 32561; -3296; 6244; 30859; -3296; 6244; 29157; -3296; 6244; 27454; -3296; 6244; 25752; -3296; 6244; 24050; -3296; 6244; 22348; -3296; 6244; 20646; -3296; 6244; 18944; -3296; 6244; 17242; -3296; 6244; 15540; -3296; 6244; 13838; -3296; 6244; 12136; -3296; 6244; 10434; -3296; 6244; 8732; -3296; 6244; 7030; -3296; 6244; 5328; -3296; 6244; 3625; -3296; 6244; 1923; -3296; 6244; 221; -3296; 6244; -1481; -3296; 6244; -3183; -3296; 6244; -4885; -3296; 6244; -6587; -3296; 6244; -8289; -3296; 6244; -9991; -3296; 6244; -11693; -3296; 6244; -13395; -3296; 6244; -15097; -3296; 6244; -16799; -3296; 6244; -18502; -3296; 6244; -20204; -3296; 6244; -21906; -3296; 6244; -23608; -3296; 6244; -25310; -3296; 6244; -27012; -3296; 6244; -28714; -3296; 6244; -30416; -3296; 6244; -32118; -3296; 6244; -33820; -3296; 6244; -35522; -3296; 6244; -37224; -3296; 6244; -38926; -3296; 6244; -40629; -3296; 6244; -42331; -3296; 6244; -44033; -3296; 6244; -45735; -3296; 6244; -47437; -3296; 6244; -49139; -3296; 6244; -50841];
  [9049; 8235; 50166; 9049; 8235; 48464; 9049; 8235; 46762; 9049; 8235; 45060; 9049; 8235; 43358; 9049; 8235; 41656; 9049; 8235; 39954; 9049; 8235; 38252; 9049; 8235; 36550; 9049; 8235; 34848; 9049; 8235; 33146; 9049; 8235; 31444; 9049; 8235; 29742; 9049; 8235; 28039; 9049; 8235; 26337; 9049; 8235; 24635; 9049; 8235; 22933; 9049; 8235; 21231; 9049; 8235; 19529; 9049; 8235; 17827; 9049; 8235; 16125; 9049; 8235; 14423; 9049; 8235; 12721; 9049; 8235; 11019; 9049; 8235; 9317; 9049; 8235; 7615; 9049; 8235; 5913; 9049; 8235; 4210; 9049; 8235; 2508; 9049; 8235; 806; 9049; 8235; -896; 9049; 8235; -2598; 9049; 8235; -4300; 9049; 8235; -6002; 9049; 8235; -7704; 9049; 8235; -9406; 9049; 8235; -11108; 9049; 8235; -12810; 9049; 8235; -14512; 9049; 8235; -16214; 9049; 8235; -17917; 9049; 8235; -19619; 9049; 8235; -21321; 9049; 8235; -23023; 9049; 8235; -24725; 9049; 8235; -26427; 9049; 8235; -28129; 9049; 8235; -29831; 9049; 8235; -31533; 9049; 8235; -33235; 9049; 8235; -34937; 9049; 8235; -36639; 9049; 8235; -38341; 9049; 8235; -40044; 9049; 8235; -41746; 9049; 8235; -43448; 9049; 8235; -45150; 9049; 8235; -46852; 9049; 8235; -48554; 9049; 8235; -50256];
  [19503; 12559; 50183; 19503; 12559; 48481; 19503; 12559; 46779; 19503; 12559; 45077; 19503; 12559; 43375; 19503; 12559; 41673; 19503; 12559; 39971; 19503; 12559; 38269; 19503; 12559; 36567; 19503; 12559; 34865; 19503; 12559; 33163; 19503; 12559; 31461; 19503; 12559; 29759; 19503; 12559; 28056; 19503; 12559; 26354; 19503; 12559; 24652; 19503; 12559; 22950; 19503; 12559; 21248; 19503; 12559; 19546; 19503; 12559; 17844; 19503; 12559; 16142; 19503; 12559; 14440; 19503; 12559; 12738; 19503; 12559; 11036; 19503; 12559; 9334; 19503; 12559; 7632; 19503; 12559; 5930; 19503; 12559; 4227; 19503; 12559; 2525; 19503; 12559; 823; 19503; 12559; -879; 19503; 12559; -2581; 19503; 12559; -4283; 19503; 12559; -5985; 19503; 12559; -7687; 19503; 12559; -9389; 19503; 12559; -11091; 19503; 12559; -12793; 19503; 12559; -14495; 19503; 12559; -16197; 19503; 12559; -17900; 19503; 12559; -19602; 19503; 12559; -21304; 19503; 12559; -23006; 19503; 12559; -24708; 19503; 12559; -26410; 19503; 12559; -28112; 19503; 12559; -29814; 19503; 12559; -31516; 19503; 12559; -33218; 19503; 12559; -34920; 19503; 12559; -36622; 19503; 12559; -38324; 19503; 12559; -40027; 19503; 12559; -41729; 19503; 12559; -43431; 19503; 12559; -45133; 19503; 12559; -46835; 19503; 12559; -48537; 19503; 12559; -50239];
  [33003; 12720; 50087; 33003; 12720; 48385; 33003; 12720; 46683; 33003; 12720; 44980; 33003; 12720; 43278; 33003; 12720; 41576; 33003; 12720; 39874; 33003; 12720; 38172; 33003; 12720; 36470; 33003; 12720; 34768; 33003; 12720; 33066; 33003; 12720; 31364; 33003; 12720; 29662; 33003; 12720; 27960; 33003; 12720; 26258; 33003; 12720; 24556; 33003; 12720; 22853; 33003; 12720; 21151; 33003; 12720; 19449; 33003; 12720; 17747; 33003; 12720; 16045; 33003; 12720; 14343; 33003; 12720; 12641; 33003; 12720; 10939; 33003; 12720; 9237; 33003; 12720; 7535; 33003; 12720; 5833; 33003; 12720; 4131; 33003; 12720; 2429; 33003; 12720; 726; 33003; 12720; -976; 33003; 12720; -2678; 33003; 12720; -4380; 33003; 12720; -6082; 33003; 12720; -7784; 33003; 12720; -9486; 33003; 12720; -11188; 33003; 12720; -12890; 33003; 12720; -14592; 33003; 12720; -16294; 33003; 12720; -17996; 33003; 12720; -19698; 33003; 12720; -21401; 33003; 12720; -23103; 33003; 12720; -24805; 33003; 12720; -26507; 33003; 12720; -28209; 33003; 12720; -29911; 33003; 12720; -31613; 33003; 12720; -33315; 33003; 12720; -35017; 33003; 12720; -36719; 33003; 12720; -38421; 33003; 12720; -40123; 33003; 12720; -41825; 33003; 12720; -43528; 33003; 12720; -45230; 33003; 12720; -46932; 33003; 12720; -48634; 33003; 12720; -50486];
  [47205; 12790; 50427; 47205; 12790; 48725; 47205; 12790; 47023; 47205; 12790; 45321; 47205; 12790; 43619; 47205; 12790; 41917; 47205; 12790; 40215; 47205; 12790; 38513; 47205; 12790; 36811; 47205; 12790; 35109; 47205; 12790; 33407; 47205; 12790; 31705; 47205; 12790; 30003; 47205; 12790; 28300; 47205; 12790; 26598; 47205; 12790; 24896; 47205; 12790; 23194; 47205; 12790; 21492; 47205; 12790; 19790; 47205; 12790; 18088; 47205; 12790; 16386; 47205; 12790; 14684; 47205; 12790; 12982; 47205; 12790; 11280; 47205; 12790; 9578; 47205; 12790; 7876; 47205; 12790; 6174; 47205; 12790; 4471; 47205; 12790; 2769; 47205; 12790; 1067; 47205; 12790; -635; 47205; 12790; -2337; 47205; 12790; -4039; 47205; 12790; -5741; 47205; 12790; -7443; 47205; 12790; -9145; 47205; 12790; -10847; 47205; 12790; -12549; 47205; 12790; -14251; 47205; 12790; -15953; 47205; 12790; -17656; 47205; 12790; -19358; 47205; 12790; -21060; 47205; 12790; -22762; 47205; 12790; -24464; 47205; 12790; -26166; 47205; 12790; -27868; 47205; 12790; -29570; 47205; 12790; -31272; 47205; 12790; -32974; 47205; 12790; -34676; 47205; 12790; -36378; 47205; 12790; -38080; 47205; 12790; -39783; 47205; 12790; -41485; 47205; 12790; -43187; 47205; 12790; -44889; 47205; 12790; -46591; 47205; 12790; -48293; 47205; 12790; -49995];
  [57637; 17092; 49404; 57637; 17092; 47702; 57637; 17092; 46000; 57637; 17092; 44298; 57637; 17092; 42596; 57637; 17092; 40894; 57637; 17092; 39192; 57637; 17092; 37490; 57637; 17092; 35788; 57637; 17092; 34086; 57637; 17092; 32384; 57637; 17092; 30682; 57637; 17092; 28980; 57637; 17092; 27277; 57637; 17092; 25575; 57637; 17092; 23873; 57637; 17092; 22171; 57637; 17092; 20469; 57637; 17092; 18767; 57637; 17092; 17065; 57637; 17092; 15363; 57637; 17092; 13661; 57637; 17092; 11959; 57637; 17092; 10257; 57637; 17092; 8555; 57637; 17092; 6853; 57637; 17092; 5151; 57637; 17092; 3448; 57637; 17092; 1746; 57637; 17092; 44; 57637; 17092; -1658; 57637; 17092; -3360; 57637; 17092; -5062; 57637; 17092; -6764; 57637; 17092; -8466; 57637; 17092; -10168; 57637; 17092; -11870; 57637; 17092; -13572; 57637; 17092; -15274; 57637; 17092; -16976; 57637; 17092; -18679; 57637; 17092; -20381; 57637; 17092; -22083; 57637; 17092; -23785; 57637; 17092; -25487; 57637; 17092; -27189; 57637; 17092; -28891; 57637; 17092; -30593; 57637; 17092; -32295; 57637; 17092; -33997; 57637; 17092; -35699; 57637; 17092; -37401; 57637; 17092; -39103; 57637; 17092; -40806; 57637; 17092; -42508; 57637; 17092; -44210; 57637; 17092; -45912; 57637; 17092; -47614; 57637; 17092; -49316; 57637; 17092; -51018];
  [-48160; 10139; 50205; -48160; 10139; 48503; -48160; 10139; 46801; -48160; 10139; 45099; -48160; 10139; 43397; -48160; 10139; 41695; -48160; 10139; 39993; -48160; 10139; 38291; -48160; 10139; 36589; -48160; 10139; 34887; -48160; 10139; 33185; -48160; 10139; 31483; -48160; 10139; 29781; -48160; 10139; 28078; -48160; 10139; 26376; -48160; 10139; 24674; -48160; 10139; 22972; -48160; 10139; 21270; -48160; 10139; 19568; -48160; 10139; 17866; -48160; 10139; 16164; -48160; 10139; 14462; -48160; 10139; 12760; -48160; 10139; 11058; -48160; 10139; 9356; -48160; 10139; 7654; -48160; 10139; 5951; -48160; 10139; 4249; -48160; 10139; 2547; -48160; 10139; 845; -48160; 10139; -857; -48160; 10139; -2559; -48160; 10139; -4261; -48160; 10139; -5963; -48160; 10139; -7665; -48160; 10139; -9367; -48160; 10139; -11069; -48160; 10139; -12771; -48160; 10139; -14473; -48160; 10139; -16176; -48160; 10139; -17878; -48160; 10139; -19580; -48160; 10139; -21282; -48160; 10139; -22984; -48160; 10139; -24686; -48160; 10139; -26388; -48160; 10139; -28090; -48160; 10139; -29792; -48160; 10139; -31494; -48160; 10139; -33196; -48160; 10139; -34898; -48160; 10139; -36600; -48160; 10139; -38302; -48160; 10139; -40005; -48160; 10139; -41707; -48160; 10139; -43409; -48160; 10139; -45111; -48160; 10139; -46813; -48160; 10139; -48492; -48160; 10139; -50194];
  [-35844; 12056; 49806; -35844; 12056; 48104; -35844; 12056; 46402; -35844; 12056; 44700; -35844; 12056; 42998; -35844; 12056; 41296; -35844; 12056; 39594; -35844; 12056; 37892; -35844; 12056; 36190; -35844; 12056; 34488; -35844; 12056; 32786; -35844; 12056; 31084; -35844; 12056; 29382; -35844; 12056; 27679; -35844; 12056; 25977; -35844; 12056; 24275; -35844; 12056; 22573; -35844; 12056; 20871; -35844; 12056; 19169; -35844; 12056; 17467; -35844; 12056; 15765; -35844; 12056; 14063; -35844; 12056; 12361; -35844; 12056; 10659; -35844; 12056; 8957; -35844; 12056; 7255; -35844; 12056; 5553; -35844; 12056; 3850; -35844; 12056; 2148; -35844; 12056; 446; -35844; 12056; -1256; -35844; 12056; -2958; -35844; 12056; -4660; -35844; 12056; -6362; -35844; 12056; -8064; -35844; 12056; -9766; -35844; 12056; -11468; -35844; 12056; -13170; -35844; 12056; -14872; -35844; 12056; -16574; -35844; 12056; -18277; -35844; 12056; -19979; -35844; 12056; -21681; -35844; 12056; -23383; -35844; 12056; -25085; -35844; 12056; -26787; -35844; 12056; -28489; -35844; 12056; -30191; -35844; 12056; -31893; -35844; 12056; -33595; -35844; 12056; -35297; -35844; 12056; -36999; -35844; 12056; -38701; -35844; 12056; -40404; -35844; 12056; -42106; -35844; 12056; -43808; -35844; 12056; -45510; -35844; 12056; -47212; -35844; 12056; -48914; -35844; 12056; -50616];
  [-23495; 14044; 50006; -23495; 14044; 48304; -23495; 14044; 46602; -23495; 14044; 44900; -23495; 14044; 43198; -23495; 14044; 41496; -23495; 14044; 39794; -23495; 14044; 38092; -23495; 14044; 36390; -23495; 14044; 34688; -23495; 14044; 32986; -23495; 14044; 31284; -23495; 14044; 29582; -23495; 14044; 27879; -23495; 14044; 26177; -23495; 14044; 24475; -23495; 14044; 22773; -23495; 14044; 21071; -23495; 14044; 19369; -23495; 14044; 17667; -23495; 14044; 15965; -23495; 14044; 14263; -23495; 14044; 12561; -23495; 14044; 10859; -23495; 14044; 9157; -23495; 14044; 7455; -23495; 14044; 5753; -23495; 14044; 4050; -23495; 14044; 2348; -23495; 14044; 646; -23495; 14044; -1056; -23495; 14044; -2758; -23495; 14044; -4460; -23495; 14044; -6162; -23495; 14044; -7864; -23495; 14044; -9566; -23495; 14044; -11268; -23495; 14044; -12970; -23495; 14044; -14672; -23495; 14044; -16374; -23495; 14044; -18077; -23495; 14044; -19779; -23495; 14044; -21481; -23495; 14044; -23183; -23495; 14044; -24885; -23495; 14044; -26587; -23495; 14044; -28289; -23495; 14044; -29991; -23495; 14044; -31693; -23495; 14044; -33395; -23495; 14044; -35097; -23495; 14044; -36799; -23495; 14044; -38501; -23495; 14044; -40204; -23495; 14044; -41906; -23495; 14044; -43608; -23495; 14044; -45310; -23495; 14044; -47012; -23495; 14044; -48714; -23495; 14044; -50416];
  [-11151; 15998; 50053; -11151; 15998; 48351; -11151; 15998; 46649; -11151; 15998; 44947; -11151; 15998; 43245; -11151; 15998; 41543; -11151; 15998; 39841; -11151; 15998; 38139; -11151; 15998; 36437; -11151; 15998; 34735; -11151; 15998; 33033; -11151; 15998; 31331; -11151; 15998; 29629; -11151; 15998; 27926; -11151; 15998; 26224; -11151; 15998; 24522; -11151; 15998; 22820; -11151; 15998; 21118; -11151; 15998; 19416; -11151; 15998; 17714; -11151; 15998; 16012; -11151; 15998; 14310; -11151; 15998; 12608; -11151; 15998; 10906; -11151; 15998; 9204; -11151; 15998; 7502; -11151; 15998; 5800; -11151; 15998; 4097; -11151; 15998; 2395; -11151; 15998; 693; -11151; 15998; -1009; -11151; 15998; -2711; -11151; 15998; -4413; -11151; 15998; -6115; -11151; 15998; -7817; -11151; 15998; -9519; -11151; 15998; -11221; -11151; 15998; -12923; -11151; 15998; -14625; -11151; 15998; -16327; -11151; 15998; -18030; -11151; 15998; -19732; -11151; 15998; -21434; -11151; 15998; -23136; -11151; 15998; -24838; -11151; 15998; -26540; -11151; 15998; -28242; -11151; 15998; -29944; -11151; 15998; -31646; -11151; 15998; -33348; -11151; 15998; -35050; -11151; 15998; -36752; -11151; 15998; -38454; -11151; 15998; -40157; -11151; 15998; -41859; -11151; 15998; -43561; -11151; 15998; -45263; -11151; 15998; -46965; -11151; 15998; -48667; -11151; 15998; -50369];
  [1187; 17919; 50234; 1187; 17919; 48532; 1187; 17919; 46830; 1187; 17919; 45128; 1187; 17919; 43426; 1187; 17919; 41724; 1187; 17919; 40022; 1187; 17919; 38320; 1187; 17919; 36618; 1187; 17919; 34916; 1187; 17919; 33214; 1187; 17919; 31512; 1187; 17919; 29810; 1187; 17919; 28107; 1187; 17919; 26405; 1187; 17919; 24703; 1187; 17919; 23001; 1187; 17919; 21299; 1187; 17919; 19597; 1187; 17919; 17895; 1187; 17919; 16193; 1187; 17919; 14491; 1187; 17919; 12789; 1187; 17919; 11087; 1187; 17919; 9385; 1187; 17919; 7683; 1187; 17919; 5980; 1187; 17919; 4278; 1187; 17919; 2576; 1187; 17919; 874; 1187; 17919; -828; 1187; 17919; -2530; 1187; 17919; -4232; 1187; 17919; -5934; 1187; 17919; -7636; 1187; 17919; -9338; 1187; 17919; -11040; 1187; 17919; -12742; 1187; 17919; -14444; 1187; 17919; -16147; 1187; 17919; -17849; 1187; 17919; -19551; 1187; 17919; -21253; 1187; 17919; -22955; 1187; 17919; -24657; 1187; 17919; -26359; 1187; 17919; -28061; 1187; 17919; -29763; 1187; 17919; -31465; 1187; 17919; -33167; 1187; 17919; -34869; 1187; 17919; -36571; 1187; 17919; -38274; 1187; 17919; -39976; 1187; 17919; -41678; 1187; 17919; -43380; 1187; 17919; -45032; 1187; 17919; -46734; 1187; 17919; -48436; 1187; 17919; -50158];
  [13203; 20298; 50274; 13203; 20298; 48572; 13203; 20298; 46869; 13203; 20298; 45167; 13203; 20298; 43465; 13203; 20298; 41763; 13203; 20298; 40061; 13203; 20298; 38359; 13203; 20298; 36657; 13203; 20298; 34955; 13203; 20298; 33253; 13203; 20298; 31551; 13203; 20298; 29849; 13203; 20298; 28147; 13203; 20298; 26445; 13203; 20298; 24742; 13203; 20298; 23040; 13203; 20298; 21338; 13203; 20298; 19636; 13203; 20298; 17934; 13203; 20298; 16232; 13203; 20298; 14530; 13203; 20298; 12828; 13203; 20298; 11126; 13203; 20298; 9424; 13203; 20298; 7722; 13203; 20298; 6020; 13203; 20298; 4318; 13203; 20298; 2615; 13203; 20298; 913; 13203; 20298; -789; 13203; 20298; -2491; 13203; 20298; -4193; 13203; 20298; -5895; 13203; 20298; -7597; 13203; 20298; -9299; 13203; 20298; -11001; 13203; 20298; -12703; 13203; 20298; -14405; 13203; 20298; -16107; 13203; 20298; -17809; 13203; 20298; -19512; 13203; 20298; -21214; 13203; 20298; -22916; 13203; 20298; -24618; 13203; 20298; -26320; 13203; 20298; -28022; 13203; 20298; -29724; 13203; 20298; -31426; 13203; 20298; -33128; 13203; 20298; -34830; 13203; 20298; -36532; 13203; 20298; -38234; 13203; 20298; -39936; 13203; 20298; -41639; 13203; 20298; -43341; 13203; 20298; -45043; 13203; 20298; -46745; 13203; 20298; -48447; 13203; 20298; -50239];
  [25731; 21166; 50443; 25731; 21166; 48740; 25731; 21166; 47038; 25731; 21166; 45336; 25731; 21166; 43634; 25731; 21166; 41932; 25731; 21166; 40230; 25731; 21166; 38528; 25731; 21166; 36826; 25731; 21166; 35124; 25731; 21166; 33422; 25731; 21166; 31720; 25731; 21166; 30018; 25731; 21166; 28316; 25731; 21166; 26613; 25731; 21166; 24911; 25731; 21166; 23209; 25731; 21166; 21507; 25731; 21166; 19805; 25731; 21166; 18103; 25731; 21166; 16401; 25731; 21166; 14699; 25731; 21166; 12997; 25731; 21166; 11295; 25731; 21166; 9593; 25731; 21166; 7891; 25731; 21166; 6189; 25731; 21166; 4486; 25731; 21166; 2784; 25731; 21166; 1082; 25731; 21166; -620; 25731; 21166; -2322; 25731; 21166; -4024; 25731; 21166; -5726; 25731; 21166; -7428; 25731; 21166; -9130; 25731; 21166; -10832; 25731; 21166; -12534; 25731; 21166; -14236; 25731; 21166; -15938; 25731; 21166; -17641; 25731; 21166; -19343; 25731; 21166; -21045; 25731; 21166; -22747; 25731; 21166; -24449; 25731; 21166; -26151; 25731; 21166; -27853; 25731; 21166; -29555; 25731; 21166; -31257; 25731; 21166; -32959; 25731; 21166; -34661; 25731; 21166; -36363; 25731; 21166; -38065; 25731; 21166; -39767; 25731; 21166; -41470; 25731; 21166; -43172; 25731; 21166; -44874; 25731; 21166; -46576; 25731; 21166; -48278; 25731; 21166; -50020];
  [38235; 23890; 49854; 38235; 23890; 48152; 38235; 23890; 46450; 38235; 23890; 44748; 38235; 23890; 43046; 38235; 23890; 41344; 38235; 23890; 39642; 38235; 23890; 37940; 38235; 23890; 36238; 38235; 23890; 34536; 38235; 23890; 32834; 38235; 23890; 31132; 38235; 23890; 29430; 38235; 23890; 27727; 38235; 23890; 26025; 38235; 23890; 24323; 38235; 23890; 22621; 38235; 23890; 20919; 38235; 23890; 19217; 38235; 23890; 17515; 38235; 23890; 15813; 38235; 23890; 14111; 38235; 23890; 12409; 38235; 23890; 10707; 38235; 23890; 9005; 38235; 23890; 7303; 38235; 23890; 5601; 38235; 23890; 3898; 38235; 23890; 2196; 38235; 23890; 494; 38235; 23890; -1208; 38235; 23890; -2910; 38235; 23890; -4612; 38235; 23890; -6314; 38235; 23890; -8016; 38235; 23890; -9718; 38235; 23890; -11420; 38235; 23890; -13122; 38235; 23890; -14824; 38235; 23890; -16526; 38235; 23890; -18229; 38235; 23890; -19931; 38235; 23890; -21633; 38235; 23890; -23335; 38235; 23890; -25037; 38235; 23890; -26739; 38235; 23890; -28441; 38235; 23890; -30143; 38235; 23890; -31845; 38235; 23890; -33547; 38235; 23890; -35249; 38235; 23890; -36951; 38235; 23890; -38653; 38235; 23890; -40356; 38235; 23890; -42058; 38235; 23890; -43760; 38235; 23890; -45462; 38235; 23890; -47164; 38235; 23890; -48866; 38235; 23890; -50568];
  [50527; 25788; 50623; 50527; 25788; 48921; 50527; 25788; 47219; 50527; 25788; 45517; 50527; 25788; 43815; 50527; 25788; 42113; 50527; 25788; 40411; 50527; 25788; 38709; 50527; 25788; 37007; 50527; 25788; 35305; 50527; 25788; 33603; 50527; 25788; 31901; 50527; 25788; 30199; 50527; 25788; 28496; 50527; 25788; 26794; 50527; 25788; 25092; 50527; 25788; 23390; 50527; 25788; 21688; 50527; 25788; 19986; 50527; 25788; 18284; 50527; 25788; 16582; 50527; 25788; 14880; 50527; 25788; 13178; 50527; 25788; 11476; 50527; 25788; 9774; 50527; 25788; 8072; 50527; 25788; 6370; 50527; 25788; 4667; 50527; 25788; 2965; 50527; 25788; 1263; 50527; 25788; -439; 50527; 25788; -2141; 50527; 25788; -3843; 50527; 25788; -5545; 50527; 25788; -7247; 50527; 25788; -8949; 50527; 25788; -10651; 50527; 25788; -12353; 50527; 25788; -14055; 50527; 25788; -15757; 50527; 25788; -17460; 50527; 25788; -19162; 50527; 25788; -20864; 50527; 25788; -22566; 50527; 25788; -24268; 50527; 25788; -25970; 50527; 25788; -27672; 50527; 25788; -29374; 50527; 25788; -31076; 50527; 25788; -32778; 50527; 25788; -34480; 50527; 25788; -36182; 50527; 25788; -37884; 50527; 25788; -39587; 50527; 25788; -41289; 50527; 25788; -42991; 50527; 25788; -44693; 50527; 25788; -46395; 50527; 25788; -48097; 50527; 25788; -49799];
  [-43704; 21780; 50147; -43704; 21780; 48444; -43704; 21780; 46777; -43704; 21780; 45040; -43704; 21780; 43338; -43704; 21780; 41636; -43704; 21780; 39934; -43704; 21780; 38232; -43704; 21780; 36530; -43704; 21780; 34828; -43704; 21780; 33126; -43704; 21780; 31424; -43704; 21780; 29722; -43704; 21780; 28020; -43704; 21780; 26318; -43704; 21780; 24615; -43704; 21780; 22913; -43704; 21780; 21211; -43704; 21780; 19509; -43704; 21780; 17807; -43704; 21780; 16105; -43704; 21780; 14403; -43704; 21780; 12701; -43704; 21780; 10999; -43704; 21780; 9297; -43704; 21780; 7595; -43704; 21780; 5893; -43704; 21780; 4191; -43704; 21780; 2488; -43704; 21780; 786; -43704; 21780; -916; -43704; 21780; -2618; -43704; 21780; -4320; -43704; 21780; -6022; -43704; 21780; -7724; -43704; 21780; -9426; -43704; 21780; -11128; -43704; 21780; -12830; -43704; 21780; -14532; -43704; 21780; -16234; -43704; 21780; -17936; -43704; 21780; -19639; -43704; 21780; -21341; -43704; 21780; -23043; -43704; 21780; -24745; -43704; 21780; -26447; -43704; 21780; -28149; -43704; 21780; -29851; -43704; 21780; -31553; -43704; 21780; -33255; -43704; 21780; -34957; -43704; 21780; -36659; -43704; 21780; -38361; -43704; 21780; -40063; -43704; 21780; -41766; -43704; 21780; -43468; -43704; 21780; -45170; -43704; 21780; -46872; -43704; 21780; -48574; -43704; 21780; -50346];
  [-31360; 23744; 50119; -31360; 23744; 48417; -31360; 23744; 46715; -31360; 23744; 45013; -31360; 23744; 43311; -31360; 23744; 41609; -31360; 23744; 39907; -31360; 23744; 38205; -31360; 23744; 36503; -31360; 23744; 34801; -31360; 23744; 33099; -31360; 23744; 31397; -31360; 23744; 29695; -31360; 23744; 27992; -31360; 23744; 26290; -31360; 23744; 24588; -31360; 23744; 22886; -31360; 23744; 21184; -31360; 23744; 19482; -31360; 23744; 17780; -31360; 23744; 16078; -31360; 23744; 14376; -31360; 23744; 12674; -31360; 23744; 10972; -31360; 23744; 9270; -31360; 23744; 7568; -31360; 23744; 5866; -31360; 23744; 4163; -31360; 23744; 2461; -31360; 23744; 759; -31360; 23744; -943; -31360; 23744; -2645; -31360; 23744; -4347; -31360; 23744; -6049; -31360; 23744; -7751; -31360; 23744; -9453; -31360; 23744; -11155; -31360; 23744; -12857; -31360; 23744; -14559; -31360; 23744; -16261; -31360; 23744; -17964; -31360; 23744; -19666; -31360; 23744; -21368; -31360; 23744; -23070; -31360; 23744; -24772; -31360; 23744; -26474; -31360; 23744; -28176; -31360; 23744; -29878; -31360; 23744; -31580; -31360; 23744; -33282; -31360; 23744; -34984; -31360; 23744; -36686; -31360; 23744; -38388; -31360; 23744; -40091; -31360; 23744; -41793; -31360; 23744; -43495; -31360; 23744; -45197; -31360; 23744; -46899; -31360; 23744; -48601; -31360; 23744; -50303];
  [-18998; 25742; 50135; -18998; 25742; 48433; -18998; 25742; 46731; -18998; 25742; 45029; -18998; 25742; 43327; -18998; 25742; 41645; -18998; 25742; 39923; -18998; 25742; 38246; -18998; 25742; 36519; -18998; 25742; 34817; -18998; 25742; 33115; -18998; 25742; 31413; -18998; 25742; 29711; -18998; 25742; 28008; -18998; 25742; 26306; -18998; 25742; 24624; -18998; 25742; 22902; -18998; 25742; 21220; -18998; 25742; 19498; -18998; 25742; 17821; -18998; 25742; 16094; -18998; 25742; 14392; -18998; 25742; 12690; -18998; 25742; 10988; -18998; 25742; 9286; -18998; 25742; 7584; -18998; 25742; 5882; -18998; 25742; 4179; -18998; 25742; 2477; -18998; 25742; 775; -18998; 25742; -927; -18998; 25742; -2629; -18998; 25742; -4331; -18998; 25742; -6033; -18998; 25742; -7735; -18998; 25742; -9437; -18998; 25742; -11139; -18998; 25742; -12841; -18998; 25742; -14543; -18998; 25742; -16220; -18998; 25742; -17948; -18998; 25742; -19650; -18998; 25742; -21352; -18998; 25742; -23054; -18998; 25742; -24756; -18998; 25742; -26458; -18998; 25742; -28160; -18998; 25742; -29862; -18998; 25742; -31564; -18998; 25742; -33266; -18998; 25742; -34968; -18998; 25742; -36670; -18998; 25742; -38372; -18998; 25742; -40075; -18998; 25742; -41777; -18998; 25742; -43479; -18998; 25742; -45181; -18998; 25742; -46883; -18998; 25742; -48585; -18998; 25742; -50287];
  [-6670; 27692; 49782; -6670; 27692; 48080; -6670; 27692; 46378; -6670; 27692; 44676; -6670; 27692; 42974; -6670; 27692; 41272; -6670; 27692; 39570; -6670; 27692; 37868; -6670; 27692; 36166; -6670; 27692; 34464; -6670; 27692; 32762; -6670; 27692; 31060; -6670; 27692; 29358; -6670; 27692; 27655; -6670; 27692; 25953; -6670; 27692; 24251; -6670; 27692; 22549; -6670; 27692; 20847; -6670; 27692; 19145; -6670; 27692; 17443; -6670; 27692; 15741; -6670; 27692; 14039; -6670; 27692; 12337; -6670; 27692; 10635; -6670; 27692; 8933; -6670; 27692; 7231; -6670; 27692; 5529; -6670; 27692; 3826; -6670; 27692; 2124; -6670; 27692; 422; -6670; 27692; -1280; -6670; 27692; -2982; -6670; 27692; -4684; -6670; 27692; -6386; -6670; 27692; -8088; -6670; 27692; -9790; -6670; 27692; -11492; -6670; 27692; -13194; -6670; 27692; -14896; -6670; 27692; -16598; -6670; 27692; -18301; -6670; 27692; -20003; -6670; 27692; -21705; -6670; 27692; -23407; -6670; 27692; -25109; -6670; 27692; -26811; -6670; 27692; -28513; -6670; 27692; -30215; -6670; 27692; -31917; -6670; 27692; -33619; -6670; 27692; -35321; -6670; 27692; -37023; -6670; 27692; -38725; -6670; 27692; -40428; -6670; 27692; -42130; -6670; 27692; -43832; -6670; 27692; -45534; -6670; 27692; -47236; -6670; 27692; -48938; -6670; 27692; -50640];
  [5426; 29297; 52456; 5426; 29297; 50753; 5426; 29297; 49051; 5426; 29297; 47349; 5426; 29297; 45647; 5426; 29297; 43945; 5426; 29297; 42243; 5426; 29297; 40541; 5426; 29297; 38839; 5426; 29297; 37137; 5426; 29297; 35435; 5426; 29297; 33733; 5426; 29297; 32031; 5426; 29297; 30329; 5426; 29297; 28626; 5426; 29297; 26924; 5426; 29297; 25222; 5426; 29297; 23520; 5426; 29297; 21818; 5426; 29297; 20116; 5426; 29297; 18414; 5426; 29297; 16712; 5426; 29297; 15010; 5426; 29297; 13308; 5426; 29297; 11606; 5426; 29297; 9904; 5426; 29297; 8202; 5426; 29297; 6499; 5426; 29297; 4797; 5426; 29297; 3095; 5426; 29297; 1393; 5426; 29297; -309; 5426; 29297; -2011; 5426; 29297; -3713; 5426; 29297; -5415; 5426; 29297; -7117; 5426; 29297; -8819; 5426; 29297; -10521; 5426; 29297; -12223; 5426; 29297; -13925; 5426; 29297; -15628; 5426; 29297; -17330; 5426; 29297; -19032; 5426; 29297; -20734; 5426; 29297; -22436; 5426; 29297; -24138; 5426; 29297; -25840; 5426; 29297; -27542; 5426; 29297; -29244; 5426; 29297; -30946; 5426; 29297; -32648; 5426; 29297; -34350; 5426; 29297; -36052; 5426; 29297; -37754; 5426; 29297; -39457; 5426; 29297; -41159; 5426; 29297; -42861; 5426; 29297; -44563; 5426; 29297; -46265; 5426; 29297; -48007];
  [17447; 31554; 51274; 17447; 31554; 49572; 17447; 31554; 47870; 17447; 31554; 46168; 17447; 31554; 44466; 17447; 31554; 42764; 17447; 31554; 41062; 17447; 31554; 39360; 17447; 31554; 37658; 17447; 31554; 35956; 17447; 31554; 34254; 17447; 31554; 32552; 17447; 31554; 30850; 17447; 31554; 29147; 17447; 31554; 27445; 17447; 31554; 25743; 17447; 31554; 24041; 17447; 31554; 22339; 17447; 31554; 20637; 17447; 31554; 18935; 17447; 31554; 17233; 17447; 31554; 15531; 17447; 31554; 13829; 17447; 31554; 12127; 17447; 31554; 10425; 17447; 31554; 8723; 17447; 31554; 7021; 17447; 31554; 5318; 17447; 31554; 3616; 17447; 31554; 1914; 17447; 31554; 212; 17447; 31554; -1490; 17447; 31554; -3192; 17447; 31554; -4894; 17447; 31554; -6596; 17447; 31554; -8298; 17447; 31554; -10000; 17447; 31554; -11702; 17447; 31554; -13404; 17447; 31554; -15106; 17447; 31554; -16809; 17447; 31554; -18511; 17447; 31554; -20213; 17447; 31554; -21915; 17447; 31554; -23617; 17447; 31554; -25319; 17447; 31554; -27021; 17447; 31554; -28723; 17447; 31554; -30425; 17447; 31554; -32127; 17447; 31554; -33829; 17447; 31554; -35531; 17447; 31554; -37233; 17447; 31554; -38936; 17447; 31554; -40638; 17447; 31554; -42340; 17447; 31554; -44042; 17447; 31554; -45744; 17447; 31554; -47446; 17447; 31554; -49148];
  [30341; 33564; 51295; 30341; 33564; 49593; 30341; 33564; 47891; 30341; 33564; 46189; 30341; 33564; 44487; 30341; 33564; 42785; 30341; 33564; 41083; 30341; 33564; 39381; 30341; 33564; 37679; 30341; 33564; 35977; 30341; 33564; 34275; 30341; 33564; 32573; 30341; 33564; 30871; 30341; 33564; 29168; 30341; 33564; 27466; 30341; 33564; 25764; 30341; 33564; 24062; 30341; 33564; 22360; 30341; 33564; 20658; 30341; 33564; 18956; 30341; 33564; 17254; 30341; 33564; 15552; 30341; 33564; 13850; 30341; 33564; 12148; 30341; 33564; 10446; 30341; 33564; 8744; 30341; 33564; 7042; 30341; 33564; 5339; 30341; 33564; 3637; 30341; 33564; 1935; 30341; 33564; 233; 30341; 33564; -1469; 30341; 33564; -3171; 30341; 33564; -4873; 30341; 33564; -6575; 30341; 33564; -8277; 30341; 33564; -9979; 30341; 33564; -11681; 30341; 33564; -13383; 30341; 33564; -15085; 30341; 33564; -16788; 30341; 33564; -18490; 30341; 33564; -20192; 30341; 33564; -21894; 30341; 33564; -23596; 30341; 33564; -25298; 30341; 33564; -27000; 30341; 33564; -28702; 30341; 33564; -30404; 30341; 33564; -32106; 30341; 33564; -33808; 30341; 33564; -35510; 30341; 33564; -37212; 30341; 33564; -38915; 30341; 33564; -40617; 30341; 33564; -42319; 30341; 33564; -44021; 30341; 33564; -45723; 30341; 33564; -47425; 30341; 33564; -49127];
  [42976; 35102; 50614; 42976; 35102; 48912; 42976; 35102; 47210; 42976; 35102; 45508; 42976; 35102; 43806; 42976; 35102; 42104; 42976; 35102; 40402; 42976; 35102; 38700; 42976; 35102; 36998; 42976; 35102; 35296; 42976; 35102; 33594; 42976; 35102; 31892; 42976; 35102; 30190; 42976; 35102; 28487; 42976; 35102; 26785; 42976; 35102; 25083; 42976; 35102; 23381; 42976; 35102; 21679; 42976; 35102; 19977; 42976; 35102; 18275; 42976; 35102; 16573; 42976; 35102; 14871; 42976; 35102; 13169; 42976; 35102; 11467; 42976; 35102; 9765; 42976; 35102; 8063; 42976; 35102; 6361; 42976; 35102; 4658; 42976; 35102; 2956; 42976; 35102; 1254; 42976; 35102; -448; 42976; 35102; -2150; 42976; 35102; -3852; 42976; 35102; -5554; 42976; 35102; -7256; 42976; 35102; -8958; 42976; 35102; -10660; 42976; 35102; -12362; 42976; 35102; -14064; 42976; 35102; -15766; 42976; 35102; -17469; 42976; 35102; -19171; 42976; 35102; -20873; 42976; 35102; -22575; 42976; 35102; -24277; 42976; 35102; -25979; 42976; 35102; -27681; 42976; 35102; -29383; 42976; 35102; -31085; 42976; 35102; -32787; 42976; 35102; -34489; 42976; 35102; -36191; 42976; 35102; -37893; 42976; 35102; -39596; 42976; 35102; -41298; 42976; 35102; -43000; 42976; 35102; -44702; 42976; 35102; -46404; 42976; 35102; -48106; 42976; 35102; -49808];
  [-39238; 33424; 50279; -39238; 33424; 48577; -39238; 33424; 46875; -39238; 33424; 45173; -39238; 33424; 43471; -39238; 33424; 41769; -39238; 33424; 40067; -39238; 33424; 38365; -39238; 33424; 36663; -39238; 33424; 34961; -39238; 33424; 33259; -39238; 33424; 31557; -39238; 33424; 29855; -39238; 33424; 28152; -39238; 33424; 26450; -39238; 33424; 24748; -39238; 33424; 23046; -39238; 33424; 21344; -39238; 33424; 19642; -39238; 33424; 17940; -39238; 33424; 16238; -39238; 33424; 14536; -39238; 33424; 12834; -39238; 33424; 11132; -39238; 33424; 9430; -39238; 33424; 7728; -39238; 33424; 6026; -39238; 33424; 4323; -39238; 33424; 2621; -39238; 33424; 919; -39238; 33424; -783; -39238; 33424; -2485; -39238; 33424; -4187; -39238; 33424; -5889; -39238; 33424; -7591; -39238; 33424; -9293; -39238; 33424; -10995; -39238; 33424; -12697; -39238; 33424; -14399; -39238; 33424; -16101; -39238; 33424; -17804; -39238; 33424; -19506; -39238; 33424; -21208; -39238; 33424; -22910; -39238; 33424; -24612; -39238; 33424; -26314; -39238; 33424; -28016; -39238; 33424; -29718; -39238; 33424; -31420; -39238; 33424; -33122; -39238; 33424; -34824; -39238; 33424; -36526; -39238; 33424; -38228; -39238; 33424; -39931; -39238; 33424; -41633; -39238; 33424; -43335; -39238; 33424; -45037; -39238; 33424; -46739; -39238; 33424; -48441; -39238; 33424; -50143];
  [-26890; 35424; 50154; -26890; 35424; 48451; -26890; 35424; 46749; -26890; 35424; 45047; -26890; 35424; 43345; -26890; 35424; 41643; -26890; 35424; 39941; -26890; 35424; 38239; -26890; 35424; 36537; -26890; 35424; 34835; -26890; 35424; 33133; -26890; 35424; 31431; -26890; 35424; 29729; -26890; 35424; 28027; -26890; 35424; 26324; -26890; 35424; 24622; -26890; 35424; 22920; -26890; 35424; 21218; -26890; 35424; 19516; -26890; 35424; 17814; -26890; 35424; 16112; -26890; 35424; 14410; -26890; 35424; 12708; -26890; 35424; 11006; -26890; 35424; 9304; -26890; 35424; 7602; -26890; 35424; 5900; -26890; 35424; 4197; -26890; 35424; 2495; -26890; 35424; 793; -26890; 35424; -909; -26890; 35424; -2611; -26890; 35424; -4313; -26890; 35424; -6015; -26890; 35424; -7717; -26890; 35424; -9419; -26890; 35424; -11121; -26890; 35424; -12823; -26890; 35424; -14525; -26890; 35424; -16227; -26890; 35424; -17930; -26890; 35424; -19632; -26890; 35424; -21334; -26890; 35424; -23036; -26890; 35424; -24738; -26890; 35424; -26440; -26890; 35424; -28142; -26890; 35424; -29844; -26890; 35424; -31546; -26890; 35424; -33248; -26890; 35424; -34950; -26890; 35424; -36652; -26890; 35424; -38354; -26890; 35424; -40057; -26890; 35424; -41759; -26890; 35424; -43461; -26890; 35424; -45163; -26890; 35424; -46865; -26890; 35424; -48567; -26890; 35424; -50289];
  [-14545; 37424; 50209; -14545; 37424; 48507; -14545; 37424; 46804; -14545; 37424; 45102; -14545; 37424; 43400; -14545; 37424; 41698; -14545; 37424; 39996; -14545; 37424; 38294; -14545; 37424; 36592; -14545; 37424; 34890; -14545; 37424; 33188; -14545; 37424; 31486; -14545; 37424; 29784; -14545; 37424; 28082; -14545; 37424; 26380; -14545; 37424; 24677; -14545; 37424; 22975; -14545; 37424; 21273; -14545; 37424; 19571; -14545; 37424; 17869; -14545; 37424; 16167; -14545; 37424; 14465; -14545; 37424; 12763; -14545; 37424; 11061; -14545; 37424; 9359; -14545; 37424; 7657; -14545; 37424; 5955; -14545; 37424; 4253; -14545; 37424; 2550; -14545; 37424; 848; -14545; 37424; -854; -14545; 37424; -2556; -14545; 37424; -4258; -14545; 37424; -5960; -14545; 37424; -7662; -14545; 37424; -9364; -14545; 37424; -11066; -14545; 37424; -12768; -14545; 37424; -14470; -14545; 37424; -16172; -14545; 37424; -17874; -14545; 37424; -19577; -14545; 37424; -21279; -14545; 37424; -22981; -14545; 37424; -24683; -14545; 37424; -26385; -14545; 37424; -28087; -14545; 37424; -29789; -14545; 37424; -31491; -14545; 37424; -33193; -14545; 37424; -34895; -14545; 37424; -36597; -14545; 37424; -38299; -14545; 37424; -40001; -14545; 37424; -41703; -14545; 37424; -43406; -14545; 37424; -45108; -14545; 37424; -46810; -14545; 37424; -48512; -14545; 37424; -50314];
  [-2197; 39324; 49981; -2197; 39324; 48279; -2197; 39324; 46577; -2197; 39324; 44875; -2197; 39324; 43173; -2197; 39324; 41471; -2197; 39324; 39769; -2197; 39324; 38067; -2197; 39324; 36365; -2197; 39324; 34663; -2197; 39324; 32961; -2197; 39324; 31259; -2197; 39324; 29557; -2197; 39324; 27854; -2197; 39324; 26152; -2197; 39324; 24450; -2197; 39324; 22748; -2197; 39324; 21046; -2197; 39324; 19344; -2197; 39324; 17642; -2197; 39324; 15940; -2197; 39324; 14238; -2197; 39324; 12536; -2197; 39324; 10834; -2197; 39324; 9132; -2197; 39324; 7430; -2197; 39324; 5728; -2197; 39324; 4025; -2197; 39324; 2323; -2197; 39324; 621; -2197; 39324; -1081; -2197; 39324; -2783; -2197; 39324; -4485; -2197; 39324; -6187; -2197; 39324; -7889; -2197; 39324; -9591; -2197; 39324; -11293; -2197; 39324; -12995; -2197; 39324; -14697; -2197; 39324; -16399; -2197; 39324; -18102; -2197; 39324; -19804; -2197; 39324; -21506; -2197; 39324; -23208; -2197; 39324; -24910; -2197; 39324; -26612; -2197; 39324; -28314; -2197; 39324; -30016; -2197; 39324; -31718; -2197; 39324; -33420; -2197; 39324; -35122; -2197; 39324; -36824; -2197; 39324; -38526; -2197; 39324; -40229; -2197; 39324; -41931; -2197; 39324; -43633; -2197; 39324; -45335; -2197; 39324; -47037; -2197; 39324; -48739; -2197; 39324; -50441];
  [10104; 41279; 50442; 10104; 41279; 48739; 10104; 41279; 47037; 10104; 41279; 45335; 10104; 41279; 43633; 10104; 41279; 41931; 10104; 41279; 40229; 10104; 41279; 38527; 10104; 41279; 36825; 10104; 41279; 35123; 10104; 41279; 33421; 10104; 41279; 31719; 10104; 41279; 30017; 10104; 41279; 28315; 10104; 41279; 26613; 10104; 41279; 24910; 10104; 41279; 23208; 10104; 41279; 21506; 10104; 41279; 19804; 10104; 41279; 18102; 10104; 41279; 16400; 10104; 41279; 14698; 10104; 41279; 12996; 10104; 41279; 11294; 10104; 41279; 9592; 10104; 41279; 7890; 10104; 41279; 6188; 10104; 41279; 4486; 10104; 41279; 2783; 10104; 41279; 1081; 10104; 41279; -621; 10104; 41279; -2323; 10104; 41279; -4025; 10104; 41279; -5727; 10104; 41279; -7429; 10104; 41279; -9131; 10104; 41279; -10833; 10104; 41279; -12535; 10104; 41279; -14237; 10104; 41279; -15939; 10104; 41279; -17641; 10104; 41279; -19344; 10104; 41279; -21046; 10104; 41279; -22748; 10104; 41279; -24450; 10104; 41279; -26152; 10104; 41279; -27854; 10104; 41279; -29556; 10104; 41279; -31258; 10104; 41279; -32960; 10104; 41279; -34662; 10104; 41279; -36364; 10104; 41279; -38066; 10104; 41279; -39768; 10104; 41279; -41471; 10104; 41279; -43173; 10104; 41279; -44875; 10104; 41279; -46577; 10104; 41279; -48279; 10104; 41279; -50051];
  [22458; 43235; 49706; 22458; 43235; 48004; 22458; 43235; 46302; 22458; 43235; 44600; 22458; 43235; 42898; 22458; 43235; 41196; 22458; 43235; 39494; 22458; 43235; 37792; 22458; 43235; 36090; 22458; 43235; 34388; 22458; 43235; 32686; 22458; 43235; 30984; 22458; 43235; 29282; 22458; 43235; 27579; 22458; 43235; 25877; 22458; 43235; 24175; 22458; 43235; 22473; 22458; 43235; 20771; 22458; 43235; 19069; 22458; 43235; 17367; 22458; 43235; 15665; 22458; 43235; 13963; 22458; 43235; 12261; 22458; 43235; 10559; 22458; 43235; 8857; 22458; 43235; 7155; 22458; 43235; 5453; 22458; 43235; 3750; 22458; 43235; 2048; 22458; 43235; 346; 22458; 43235; -1356; 22458; 43235; -3058; 22458; 43235; -4760; 22458; 43235; -6462; 22458; 43235; -8164; 22458; 43235; -9866; 22458; 43235; -11568; 22458; 43235; -13270; 22458; 43235; -14972; 22458; 43235; -16674; 22458; 43235; -18377; 22458; 43235; -20079; 22458; 43235; -21781; 22458; 43235; -23483; 22458; 43235; -25185; 22458; 43235; -26887; 22458; 43235; -28589; 22458; 43235; -30291; 22458; 43235; -31993; 22458; 43235; -33695; 22458; 43235; -35397; 22458; 43235; -37099; 22458; 43235; -38801; 22458; 43235; -40504; 22458; 43235; -42206; 22458; 43235; -43908; 22458; 43235; -45610; 22458; 43235; -47312; 22458; 43235; -49014; 22458; 43235; -50716];
  [33844; 46372; 50572; 33844; 46372; 48870; 33844; 46372; 47168; 33844; 46372; 45466; 33844; 46372; 43764; 33844; 46372; 42062; 33844; 46372; 40360; 33844; 46372; 38658; 33844; 46372; 36956; 33844; 46372; 35254; 33844; 46372; 33552; 33844; 46372; 31850; 33844; 46372; 30148; 33844; 46372; 28445; 33844; 46372; 26743; 33844; 46372; 25041; 33844; 46372; 23339; 33844; 46372; 21637; 33844; 46372; 19935; 33844; 46372; 18233; 33844; 46372; 16531; 33844; 46372; 14829; 33844; 46372; 13127; 33844; 46372; 11425; 33844; 46372; 9723; 33844; 46372; 8021; 33844; 46372; 6319; 33844; 46372; 4616; 33844; 46372; 2914; 33844; 46372; 1212; 33844; 46372; -490; 33844; 46372; -2192; 33844; 46372; -3894; 33844; 46372; -5596; 33844; 46372; -7298; 33844; 46372; -9000; 33844; 46372; -10702; 33844; 46372; -12404; 33844; 46372; -14106; 33844; 46372; -15808; 33844; 46372; -17511; 33844; 46372; -19213; 33844; 46372; -20915; 33844; 46372; -22617; 33844; 46372; -24319; 33844; 46372; -26021; 33844; 46372; -27723; 33844; 46372; -29425; 33844; 46372; -31127; 33844; 46372; -32829; 33844; 46372; -34531; 33844; 46372; -36233; 33844; 46372; -37935; 33844; 46372; -39638; 33844; 46372; -41340; 33844; 46372; -43042; 33844; 46372; -44744; 33844; 46372; -46446; 33844; 46372; -48148; 33844; 46372; -49850];
  [-34788; 45152; 50201; -34788; 45152; 48498; -34788; 45152; 46796; -34788; 45152; 45094; -34788; 45152; 43392; -34788; 45152; 41690; -34788; 45152; 39988; -34788; 45152; 38286; -34788; 45152; 36584; -34788; 45152; 34882; -34788; 45152; 33180; -34788; 45152; 31478; -34788; 45152; 29776; -34788; 45152; 28074; -34788; 45152; 26371; -34788; 45152; 24669; -34788; 45152; 22967; -34788; 45152; 21265; -34788; 45152; 19563; -34788; 45152; 17861; -34788; 45152; 16159; -34788; 45152; 14457; -34788; 45152; 12755; -34788; 45152; 11053; -34788; 45152; 9351; -34788; 45152; 7649; -34788; 45152; 5947; -34788; 45152; 4244; -34788; 45152; 2542; -34788; 45152; 840; -34788; 45152; -862; -34788; 45152; -2564; -34788; 45152; -4266; -34788; 45152; -5968; -34788; 45152; -7670; -34788; 45152; -9372; -34788; 45152; -11074; -34788; 45152; -12776; -34788; 45152; -14478; -34788; 45152; -16180; -34788; 45152; -17883; -34788; 45152; -19585; -34788; 45152; -21287; -34788; 45152; -22989; -34788; 45152; -24691; -34788; 45152; -26393; -34788; 45152; -28095; -34788; 45152; -29797; -34788; 45152; -31499; -34788; 45152; -33201; -34788; 45152; -34903; -34788; 45152; -36605; -34788; 45152; -38307; -34788; 45152; -40009; -34788; 45152; -41712; -34788; 45152; -43414; -34788; 45152; -45116; -34788; 45152; -46818; -34788; 45152; -48520; -34788; 45152; -50262];
  [-22409; 47086; 50242; -22409; 47086; 48540; -22409; 47086; 46838; -22409; 47086; 45136; -22409; 47086; 43434; -22409; 47086; 41732; -22409; 47086; 40030; -22409; 47086; 38328; -22409; 47086; 36626; -22409; 47086; 34924; -22409; 47086; 33222; -22409; 47086; 31520; -22409; 47086; 29818; -22409; 47086; 28115; -22409; 47086; 26413; -22409; 47086; 24711; -22409; 47086; 23009; -22409; 47086; 21307; -22409; 47086; 19605; -22409; 47086; 17903; -22409; 47086; 16201; -22409; 47086; 14499; -22409; 47086; 12797; -22409; 47086; 11095; -22409; 47086; 9393; -22409; 47086; 7691; -22409; 47086; 5989; -22409; 47086; 4286; -22409; 47086; 2584; -22409; 47086; 882; -22409; 47086; -820; -22409; 47086; -2522; -22409; 47086; -4224; -22409; 47086; -5926; -22409; 47086; -7628; -22409; 47086; -9330; -22409; 47086; -11032; -22409; 47086; -12734; -22409; 47086; -14436; -22409; 47086; -16138; -22409; 47086; -17841; -22409; 47086; -19543; -22409; 47086; -21245; -22409; 47086; -22947; -22409; 47086; -24649; -22409; 47086; -26351; -22409; 47086; -28053; -22409; 47086; -29755; -22409; 47086; -31457; -22409; 47086; -33159; -22409; 47086; -34861; -22409; 47086; -36563; -22409; 47086; -38265; -22409; 47086; -39968; -22409; 47086; -41670; -22409; 47086; -43372; -22409; 47086; -45074; -22409; 47086; -46776; -22409; 47086; -48478; -22409; 47086; -50180];
  [-10106; 49022; 50149; -10106; 49022; 48446; -10106; 49022; 46744; -10106; 49022; 45042; -10106; 49022; 43340; -10106; 49022; 41638; -10106; 49022; 39936; -10106; 49022; 38234; -10106; 49022; 36532; -10106; 49022; 34830; -10106; 49022; 33128; -10106; 49022; 31426; -10106; 49022; 29724; -10106; 49022; 28022; -10106; 49022; 26319; -10106; 49022; 24617; -10106; 49022; 22915; -10106; 49022; 21213; -10106; 49022; 19511; -10106; 49022; 17809; -10106; 49022; 16107; -10106; 49022; 14405; -10106; 49022; 12703; -10106; 49022; 11001; -10106; 49022; 9299; -10106; 49022; 7597; -10106; 49022; 5895; -10106; 49022; 4192; -10106; 49022; 2490; -10106; 49022; 788; -10106; 49022; -914; -10106; 49022; -2616; -10106; 49022; -4318; -10106; 49022; -6020; -10106; 49022; -7722; -10106; 49022; -9424; -10106; 49022; -11126; -10106; 49022; -12828; -10106; 49022; -14530; -10106; 49022; -16232; -10106; 49022; -17934; -10106; 49022; -19637; -10106; 49022; -21339; -10106; 49022; -23041; -10106; 49022; -24743; -10106; 49022; -26445; -10106; 49022; -28147; -10106; 49022; -29849; -10106; 49022; -31551; -10106; 49022; -33253; -10106; 49022; -34955; -10106; 49022; -36657; -10106; 49022; -38359; -10106; 49022; -40061; -10106; 49022; -41764; -10106; 49022; -43466; -10106; 49022; -45168; -10106; 49022; -46870; -10106; 49022; -48572; -10106; 49022; -50324];
  [2211; 50950; 50466; 2211; 50950; 48764; 2211; 50950; 47062; 2211; 50950; 45360; 2211; 50950; 43658; 2211; 50950; 41956; 2211; 50950; 40254; 2211; 50950; 38552; 2211; 50950; 36850; 2211; 50950; 35148; 2211; 50950; 33446; 2211; 50950; 31744; 2211; 50950; 30042; 2211; 50950; 28339; 2211; 50950; 26637; 2211; 50950; 24935; 2211; 50950; 23233; 2211; 50950; 21531; 2211; 50950; 19829; 2211; 50950; 18127; 2211; 50950; 16425; 2211; 50950; 14723; 2211; 50950; 13021; 2211; 50950; 11319; 2211; 50950; 9617; 2211; 50950; 7915; 2211; 50950; 6213; 2211; 50950; 4510; 2211; 50950; 2808; 2211; 50950; 1106; 2211; 50950; -596; 2211; 50950; -2298; 2211; 50950; -4000; 2211; 50950; -5702; 2211; 50950; -7404; 2211; 50950; -9106; 2211; 50950; -10808; 2211; 50950; -12510; 2211; 50950; -14212; 2211; 50950; -15914; 2211; 50950; -17617; 2211; 50950; -19319; 2211; 50950; -21021; 2211; 50950; -22723; 2211; 50950; -24425; 2211; 50950; -26127; 2211; 50950; -27829; 2211; 50950; -29531; 2211; 50950; -31233; 2211; 50950; -32935; 2211; 50950; -34637; 2211; 50950; -36339; 2211; 50950; -38041; 2211; 50950; -39744; 2211; 50950; -41446; 2211; 50950; -43148; 2211; 50950; -44850; 2211; 50950; -46552; 2211; 50950; -48254; 2211; 50950; -49956];
  [3125; -7293; 18829; 3125; -7293; 17828; 3125; -7293; 16827; 3125; -7293; 15826; 3125; -7293; 14824; 3125; -7293; 13823; 3125; -7293; 12822; 3125; -7293; 11821; 3125; -7293; 10820; 3125; -7293; 9818; 3125; -7293; -15913; 3125; -7293; -16614; 3125; -7293; -17315; 3125; -7293; -18016; 3125; -7293; -18716; 3125; -7293; -19417; 3125; -7293; -20118; 3125; -7293; -20819; 3125; -7293; -21520; 3125; -7293; -22221; 3125; -7293; -22922; 3125; -7293; -23622; 3125; -7293; -24323; 3125; -7293; -25024; 3125; -7293; -25725; 3125; -7293; -26426; 3125; -7293; -27127; 3125; -7293; -27828; 3125; -7293; -28528; 3125; -7293; -29229; 3125; -7293; -29930; 3125; -7293; -30631; 3125; -7293; -31332; 3125; -7293; -32033; 3125; -7293; -32734; 3125; -7293; -33434; 3125; -7293; -34135; 3125; -7293; -34836; 3125; -7293; -35537; 3125; -7293; -36238; 3125; -7293; -36939; 3125; -7293; -37640; 3125; -7293; -38340; 3125; -7293; -39041; 3125; -7293; -39742; 3125; -7293; -40443; 3125; -7293; -41144; 3125; -7293; -41845; 3125; -7293; -42545; 3125; -7293; -43246; 3125; -7293; -43947; 3125; -7293; -44648; 3125; -7293; -45349; 3125; -7293; -46050; 3125; -7293; -46751; 3125; -7293; -47451; 3125; -7293; -48152; 3125; -7293; -48853; 3125; -7293; -49554; 3125; -7293; -50342];
  [7237; -6660; 18759; 7237; -6660; 17758; 7237; -6660; 16757; 7237; -6660; 15756; 7237; -6660; 14754; 7237; -6660; 13753; 7237; -6660; 12752; 7237; -6660; 11751; 7237; -6660; 10750; 7237; -6660; 9748; 7237; -6660; -15983; 7237; -6660; -16684; 7237; -6660; -17385; 7237; -6660; -18086; 7237; -6660; -18786; 7237; -6660; -19487; 7237; -6660; -20188; 7237; -6660; -20889; 7237; -6660; -21590; 7237; -6660; -22291; 7237; -6660; -22992; 7237; -6660; -23692; 7237; -6660; -24393; 7237; -6660; -25094; 7237; -6660; -25795; 7237; -6660; -26496; 7237; -6660; -27197; 7237; -6660; -27898; 7237; -6660; -28598; 7237; -6660; -29299; 7237; -6660; -30000; 7237; -6660; -30701; 7237; -6660; -31402; 7237; -6660; -32103; 7237; -6660; -32804; 7237; -6660; -33504; 7237; -6660; -34205; 7237; -6660; -34906; 7237; -6660; -35607; 7237; -6660; -36308; 7237; -6660; -37009; 7237; -6660; -37710; 7237; -6660; -38410; 7237; -6660; -39111; 7237; -6660; -39812; 7237; -6660; -40513; 7237; -6660; -41214; 7237; -6660; -41915; 7237; -6660; -42616; 7237; -6660; -43316; 7237; -6660; -44017; 7237; -6660; -44718; 7237; -6660; -45419; 7237; -6660; -46120; 7237; -6660; -46821; 7237; -6660; -47522; 7237; -6660; -48222; 7237; -6660; -48923; 7237; -6660; -49624; 7237; -6660; -50363];
  [4160; 3549; 18952; 4160; 3549; 17951; 4160; 3549; 16950; 4160; 3549; 15949; 4160; 3549; 14947; 4160; 3549; 13946; 4160; 3549; 12945; 4160; 3549; 11944; 4160; 3549; 10943; 4160; 3549; 9941; 4160; 3549; -15790; 4160; 3549; -16491; 4160; 3549; -17192; 4160; 3549; -17893; 4160; 3549; -18593; 4160; 3549; -19294; 4160; 3549; -19995; 4160; 3549; -20696; 4160; 3549; -21397; 4160; 3549; -22098; 4160; 3549; -22799; 4160; 3549; -23499; 4160; 3549; -24200; 4160; 3549; -24901; 4160; 3549; -25602; 4160; 3549; -26303; 4160; 3549; -27004; 4160; 3549; -27705; 4160; 3549; -28405; 4160; 3549; -29106; 4160; 3549; -29807; 4160; 3549; -30508; 4160; 3549; -31209; 4160; 3549; -31910; 4160; 3549; -32611; 4160; 3549; -33311; 4160; 3549; -34012; 4160; 3549; -34713; 4160; 3549; -35414; 4160; 3549; -36115; 4160; 3549; -36816; 4160; 3549; -37517; 4160; 3549; -38217; 4160; 3549; -38918; 4160; 3549; -39619; 4160; 3549; -40320; 4160; 3549; -41021; 4160; 3549; -41722; 4160; 3549; -42423; 4160; 3549; -43123; 4160; 3549; -43824; 4160; 3549; -44525; 4160; 3549; -45226; 4160; 3549; -45927; 4160; 3549; -46628; 4160; 3549; -47329; 4160; 3549; -48029; 4160; 3549; -48730; 4160; 3549; -49431; 4160; 3549; -50161];
  [10694; 2709; 18666; 10694; 2709; 17665; 10694; 2709; 16664; 10694; 2709; 15663; 10694; 2709; 14661; 10694; 2709; 13660; 10694; 2709; 12659; 10694; 2709; 11658; 10694; 2709; 10656; 10694; 2709; 9655; 10694; 2709; -16076; 10694; 2709; -16777; 10694; 2709; -17478; 10694; 2709; -18179; 10694; 2709; -18880; 10694; 2709; -19580; 10694; 2709; -20281; 10694; 2709; -20982; 10694; 2709; -21683; 10694; 2709; -22384; 10694; 2709; -23085; 10694; 2709; -23786; 10694; 2709; -24486; 10694; 2709; -25187; 10694; 2709; -25888; 10694; 2709; -26589; 10694; 2709; -27290; 10694; 2709; -27991; 10694; 2709; -28692; 10694; 2709; -29392; 10694; 2709; -30093; 10694; 2709; -30794; 10694; 2709; -31495; 10694; 2709; -32196; 10694; 2709; -32897; 10694; 2709; -33598; 10694; 2709; -34298; 10694; 2709; -34999; 10694; 2709; -35700; 10694; 2709; -36401; 10694; 2709; -37102; 10694; 2709; -37803; 10694; 2709; -38504; 10694; 2709; -39204; 10694; 2709; -39905; 10694; 2709; -40606; 10694; 2709; -41307; 10694; 2709; -42008; 10694; 2709; -42709; 10694; 2709; -43410; 10694; 2709; -44110; 10694; 2709; -44811; 10694; 2709; -45512; 10694; 2709; -46213; 10694; 2709; -46914; 10694; 2709; -47615; 10694; 2709; -48316; 10694; 2709; -49016; 10694; 2709; -49717; 10694; 2709; -50362];
  [11319; -6047; 18632; 11319; -6047; 17631; 11319; -6047; 16630; 11319; -6047; 15629; 11319; -6047; 14627; 11319; -6047; 13626; 11319; -6047; 12625; 11319; -6047; 11624; 11319; -6047; 10623; 11319; -6047; 9621; 11319; -6047; -16110; 11319; -6047; -16811; 11319; -6047; -17512; 11319; -6047; -18213; 11319; -6047; -18913; 11319; -6047; -19614; 11319; -6047; -20315; 11319; -6047; -21016; 11319; -6047; -21717; 11319; -6047; -22418; 11319; -6047; -23119; 11319; -6047; -23819; 11319; -6047; -24520; 11319; -6047; -25221; 11319; -6047; -25922; 11319; -6047; -26623; 11319; -6047; -27324; 11319; -6047; -28025; 11319; -6047; -28725; 11319; -6047; -29426; 11319; -6047; -30127; 11319; -6047; -30828; 11319; -6047; -31529; 11319; -6047; -32230; 11319; -6047; -32931; 11319; -6047; -33631; 11319; -6047; -34332; 11319; -6047; -35033; 11319; -6047; -35734; 11319; -6047; -36435; 11319; -6047; -37136; 11319; -6047; -37837; 11319; -6047; -38537; 11319; -6047; -39238; 11319; -6047; -39939; 11319; -6047; -40640; 11319; -6047; -41341; 11319; -6047; -42042; 11319; -6047; -42742; 11319; -6047; -43443; 11319; -6047; -44144; 11319; -6047; -44845; 11319; -6047; -45546; 11319; -6047; -46247; 11319; -6047; -46948; 11319; -6047; -47648; 11319; -6047; -48349; 11319; -6047; -49050; 11319; -6047; -49728; 11319; -6047; -50541];
  [5720; -10552; 18602; 5720; -10552; 17601; 5720; -10552; 16600; 5720; -10552; 15599; 5720; -10552; 14597; 5720; -10552; 13596; 5720; -10552; 12595; 5720; -10552; 11594; 5720; -10552; 10592; 5720; -10552; 9591; 5720; -10552; -16140; 5720; -10552; -16841; 5720; -10552; -17542; 5720; -10552; -18243; 5720; -10552; -18944; 5720; -10552; -19644; 5720; -10552; -20345; 5720; -10552; -21046; 5720; -10552; -21747; 5720; -10552; -22448; 5720; -10552; -23149; 5720; -10552; -23850; 5720; -10552; -24550; 5720; -10552; -25251; 5720; -10552; -25952; 5720; -10552; -26653; 5720; -10552; -27354; 5720; -10552; -28055; 5720; -10552; -28756; 5720; -10552; -29456; 5720; -10552; -30157; 5720; -10552; -30858; 5720; -10552; -31559; 5720; -10552; -32260; 5720; -10552; -32961; 5720; -10552; -33662; 5720; -10552; -34362; 5720; -10552; -35063; 5720; -10552; -35764; 5720; -10552; -36465; 5720; -10552; -37166; 5720; -10552; -37867; 5720; -10552; -38568; 5720; -10552; -39268; 5720; -10552; -39969; 5720; -10552; -40670; 5720; -10552; -41371; 5720; -10552; -42072; 5720; -10552; -42773; 5720; -10552; -43474; 5720; -10552; -44174; 5720; -10552; -44875; 5720; -10552; -45576; 5720; -10552; -46277; 5720; -10552; -46978; 5720; -10552; -47679; 5720; -10552; -48379; 5720; -10552; -49080; 5720; -10552; -49781; 5720; -10552; -50430];
  [-968; -7950; 19101; -968; -7950; 18100; -968; -7950; 17099; -968; -7950; 16098; -968; -7950; 15096; -968; -7950; 14095; -968; -7950; 13094; -968; -7950; 12093; -968; -7950; 11091; -968; -7950; 10090; -968; -7950; -15641; -968; -7950; -16342; -968; -7950; -17043; -968; -7950; -17744; -968; -7950; -18445; -968; -7950; -19145; -968; -7950; -19846; -968; -7950; -20547; -968; -7950; -21248; -968; -7950; -21949; -968; -7950; -22650; -968; -7950; -23351; -968; -7950; -24051; -968; -7950; -24752; -968; -7950; -25453; -968; -7950; -26154; -968; -7950; -26855; -968; -7950; -27556; -968; -7950; -28257; -968; -7950; -28957; -968; -7950; -29658; -968; -7950; -30359; -968; -7950; -31060; -968; -7950; -31761; -968; -7950; -32462; -968; -7950; -33163; -968; -7950; -33863; -968; -7950; -34564; -968; -7950; -35265; -968; -7950; -35966; -968; -7950; -36667; -968; -7950; -37368; -968; -7950; -38069; -968; -7950; -38769; -968; -7950; -39470; -968; -7950; -40171; -968; -7950; -40872; -968; -7950; -41573; -968; -7950; -42274; -968; -7950; -42975; -968; -7950; -43675; -968; -7950; -44376; -968; -7950; -45077; -968; -7950; -45778; -968; -7950; -46479; -968; -7950; -47180; -968; -7950; -47881; -968; -7950; -48581; -968; -7950; -49282; -968; -7950; -49928];
  [-1097; 672; 19042; -1097; 672; 18041; -1097; 672; 17040; -1097; 672; 16039; -1097; 672; 15037; -1097; 672; 14036; -1097; 672; 13035; -1097; 672; 12034; -1097; 672; 11033; -1097; 672; 10031; -1097; 672; -15700; -1097; 672; -16401; -1097; 672; -17102; -1097; 672; -17803; -1097; 672; -18503; -1097; 672; -19204; -1097; 672; -19905; -1097; 672; -20606; -1097; 672; -21307; -1097; 672; -22008; -1097; 672; -22709; -1097; 672; -23409; -1097; 672; -24110; -1097; 672; -24811; -1097; 672; -25512; -1097; 672; -26213; -1097; 672; -26914; -1097; 672; -27615; -1097; 672; -28315; -1097; 672; -29016; -1097; 672; -29717; -1097; 672; -30418; -1097; 672; -31119; -1097; 672; -31820; -1097; 672; -32521; -1097; 672; -33221; -1097; 672; -33922; -1097; 672; -34623; -1097; 672; -35324; -1097; 672; -36025; -1097; 672; -36726; -1097; 672; -37427; -1097; 672; -38127; -1097; 672; -38828; -1097; 672; -39529; -1097; 672; -40230; -1097; 672; -40931; -1097; 672; -41632; -1097; 672; -42333; -1097; 672; -43033; -1097; 672; -43734; -1097; 672; -44435; -1097; 672; -45136; -1097; 672; -45837; -1097; 672; -46538; -1097; 672; -47239; -1097; 672; -47939; -1097; 672; -48640; -1097; 672; -49341; -1097; 672; -50073]].

(** [X_IC79_coords_flat] (detector.py l.22-24) in hundredths of a metre, 180 numbers (one cell) per line *)
Definition X_IC79_coords_flat_lines : list (list Z) := [
  [0; 0; 0; 0; 0; 0; 0; 0; 0; 0; 0; 0; 0; 0; 0; 0; 0; 0; 0; 0; 0; 0; 0; 0; 0; 0; 0; 0; 0; 0; 0; 0; 0; 0; 0; 0; 0; 0; 0; 0; 0; 0; 0; 0; 0; 0; 0; 0; 0; 0; 0; 0; 0; 0; 0; 0; 0; 0; 0; 0; 0; 0; 0; 0; 0; 0; 0; 0; 0; 0; 0; 0; 0; 0; 0; 0; 0; 0; 0; 0; 0; 0; 0; 0; 0; 0; 0; 0; 0; 0; 0; 0; 0; 0; 0; 0; 0; 0; 0; 0; 0; 0; 0; 0; 0; 0; 0; 0; 0; 0; 0; 0; 0; 0; 0; 0; 0; 0; 0; 0; 0; 0; 0; 0; 0; 0; 0; 0; 0; 0; 0; 0; 0; 0; 0; 0; 0; 0; 0; 0; 0; 0; 0; 0; 0; 0; 0; 0; 0; 0; 0; 0; 0; 0; 0; 0; 0; 0; 0; 0; 0; 0; 0; 0; 0; 0; 0; 0; 0; 0; 0; 0; 0; 0; 0; 0; 0; 0; 0; 0];
  [0; 0; 0; 0; 0; 0; 0; 0; 0; 0; 0; 0; 0; 0; 0; 0; 0; 0; 0; 0; 0; 0; 0; 0; 0; 0; 0; 0; 0; 0; 0; 0; 0; 0; 0; 0; 0; 0; 0; 0; 0; 0; 0; 0; 0; 0; 0; 0; 0; 0; 0; 0; 0; 0; 0; 0; 0; 0; 0; 0; 0; 0; 0; 0; 0; 0; 0; 0; 0; 0; 0; 0; 0; 0; 0; 0; 0; 0; 0; 0; 0; 0; 0; 0; 0; 0; 0; 0; 0; 0; 0; 0; 0; 0; 0; 0; 0; 0; 0; 0; 0; 0; 0; 0; 0; 0; 0; 0; 0; 0; 0; 0; 0; 0; 0; 0; 0; 0; 0; 0; 0; 0; 0; 0; 0; 0; 0; 0; 0; 0; 0; 0; 0; 0; 0; 0; 0; 0; 0; 0; 0; 0; 0; 0; 0; 0; 0; 0; 0; 0; 0; 0; 0; 0; 0; 0; 0; 0; 0; 0; 0; 0; 0; 0; 0; 0; 0; 0; 0; 0; 0; 0; 0; 0; 0; 0; 0; 0; 0; 0];
  [0; 0; 0; 0; 0; 0; 0; 0; 0; 0; 0; 0; 0; 0; 0; 0; 0; 0; 0; 0; 0; 0; 0; 0; 0; 0; 0; 0; 0; 0; 0; 0; 0; 0; 0; 0; 0; 0; 0; 0; 0; 0; 0; 0; 0; 0; 0; 0; 0; 0; 0; 0; 0; 0; 0; 0; 0; 0; 0; 0; 0; 0; 0; 0; 0; 0; 0; 0; 0; 0; 0; 0; 0; 0; 0; 0; 0; 0; 0; 0; 0; 0; 0; 0; 0; 0; 0; 0; 0; 0; 0; 0; 0; 0; 0; 0; 0; 0; 0; 0; 0; 0; 0; 0; 0; 0; 0; 0; 0; 0; 0; 0; 0; 0; 0; 0; 0; 0; 0; 0; 0; 0; 0; 0; 0; 0; 0; 0; 0; 0; 0; 0; 0; 0; 0; 0; 0; 0; 0; 0; 0; 0; 0; 0; 0; 0; 0; 0; 0; 0; 0; 0; 0; 0; 0; 0; 0; 0; 0; 0; 0; 0; 0; 0; 0; 0; 0; 0; 0; 0; 0; 0; 0; 0; 0; 0; 0; 0; 0; 0];
  [0; 0; 0; 0; 0; 0; 0; 0; 0; 0; 0; 0; 0; 0; 0; 0; 0; 0; 0; 0; 0; 0; 0; 0; 0; 0; 0; 0; 0; 0; 0; 0; 0; 0; 0; 0; 0; 0; 0; 0; 0; 0; 0; 0; 0; 0; 0; 0; 0; 0; 0; 0; 0; 0; 0; 0; 0; 0; 0; 0; 0; 0; 0; 0; 0; 0; 0; 0; 0; 0; 0; 0; 0; 0; 0; 0; 0; 0; 0; 0; 0; 0; 0; 0; 0; 0; 0; 0; 0; 0; 0; 0; 0; 0; 0; 0; 0; 0; 0; 0; 0; 0; 0; 0; 0; 0; 0; 0; 0; 0; 0; 0; 0; 0; 0; 0; 0; 0; 0; 0; 0; 0; 0; 0; 0; 0; 0; 0; 0; 0; 0; 0; 0; 0; 0; 0; 0; 0; 0; 0; 0; 0; 0; 0; 0; 0; 0; 0; 0; 0; 0; 0; 0; 0; 0; 0; 0; 0; 0; 0; 0; 0; 0; 0; 0; 0; 0; 0; 0; 0; 0; 0; 0; 0; 0; 0; 0; 0; 0; 0];
  [-25614; -52108; 49603; -25614; -52108; 47901; -25614; -52108; 46199; -25614; -52108; 44497; -25614; -52108; 42795; -25614; -52108; 41093; -25614; -52108; 39391; -25614; -52108; 37688; -25614; -52108; 35986; -25614; -52108; 34284; -25614; -52108; 32582; -25614; -52108; 30880; -25614; -52108; 29178; -25614; -52108; 27476; -25614; -52108; 25774; -25614; -52108; 24072; -25614; -52108; 22370; -25614; -52108; 20668; -25614; -52108; 18966; -25614; -52108; 17264; -25614; -52108; 15562; -25614; -52108; 13859; -25614; -52108; 12157; -25614; -52108; 10455; -25614; -52108; 8753; -25614; -52108; 7051; -25614; -52108; 5349; -25614; -52108; 3647; -25614; -52108; 1945; -25614; -52108; 243; -25614; -52108; -1459; -25614; -52108; -3161; -25614; -52108; -4863; -25614; -52108; -6565; -25614; -52108; -8268; -25614; -52108; -9970; -25614; -52108; -11672; -25614; -52108; -13374; -25614; -52108; -15076; -25614; -52108; -16778; -25614; -52108; -18480; -25614; -52108; -20182; -25614; -52108; -21884; -25614; -52108; -23586; -25614; -52108; -25288; -25614; -52108; -26990; -25614; -52108; -28692; -25614; -52108; -30395; -25614; -52108; -32097; -25614; -52108; -33799; -25614; -52108; -35501; -25614; -52108; -37203; -25614; -52108; -38905; -25614; -52108; -40607; -25614; -52108; -42309; -25614; -52108; -44011; -25614; -52108; -45713; -25614; -52108; -47415; -25614; -52108; -49117; -25614; -52108; -50440];
  [-13280; -50145; 50007; -13280; -50145; 48305; -13280; -50145; 46603; -13280; -50145; 44901; -13280; -50145; 43199; -13280; -50145; 41497; -13280; -50145; 39795; -13280; -50145; 38093; -13280; -50145; 36391; -13280; -50145; 34689; -13280; -50145; 32987; -13280; -50145; 31285; -13280; -50145; 29583; -13280; -50145; 27880; -13280; -50145; 26178; -13280; -50145; 24476; -13280; -50145; 22774; -13280; -50145; 21072; -13280; -50145; 19370; -13280; -50145; 17668; -13280; -50145; 15966; -13280; -50145; 14264; -13280; -50145; 12562; -13280; -50145; 10860; -13280; -50145; 9158; -13280; -50145; 7456; -13280; -50145; 5754; -13280; -50145; 4051; -13280; -50145; 2349; -13280; -50145; 647; -13280; -50145; -1055; -13280; -50145; -2757; -13280; -50145; -4459; -13280; -50145; -6161; -13280; -50145; -7863; -13280; -50145; -9565; -13280; -50145; -11267; -13280; -50145; -12969; -13280; -50145; -14671; -13280; -50145; -16373; -13280; -50145; -18076; -13280; -50145; -19778; -13280; -50145; -21480; -13280; -50145; -23182; -13280; -50145; -24884; -13280; -50145; -26586; -13280; -50145; -28288; -13280; -50145; -29990; -13280; -50145; -31692; -13280; -50145; -33394; -13280; -50145; -35096; -13280; -50145; -36798; -13280; -50145; -38500; -13280; -50145; -40203; -13280; -50145; -41905; -13280; -50145; -43607; -13280; -50145; -45309; -13280; -50145; -47011; -13280; -50145; -48713; -13280; -50145; -50415];
  [-913; -48174; 49923; -913; -48174; 48221; -913; -48174; 46519; -913; -48174; 44817; -913; -48174; 43115; -913; -48174; 41413; -913; -48174; 39711; -913; -48174; 38009; -913; -48174; 36307; -913; -48174; 34605; -913; -48174; 32903; -913; -48174; 31201; -913; -48174; 29499; -913; -48174; 27796; -913; -48174; 26094; -913; -48174; 24392; -913; -48174; 22690; -913; -48174; 20988; -913; -48174; 19286; -913; -48174; 17584; -913; -48174; 15882; -913; -48174; 14180; -913; -48174; 12478; -913; -48174; 10776; -913; -48174; 9074; -913; -48174; 7372; -913; -48174; 5670; -913; -48174; 3967; -913; -48174; 2265; -913; -48174; 563; -913; -48174; -1139; -913; -48174; -2841; -913; -48174; -4543; -913; -48174; -6245; -913; -48174; -7947; -913; -48174; -9649; -913; -48174; -11351; -913; -48174; -13053; -913; -48174; -14755; -913; -48174; -16457; -913; -48174; -18160; -913; -48174; -19862; -913; -48174; -21564; -913; -48174; -23266; -913; -48174; -24968; -913; -48174; -26670; -913; -48174; -28372; -913; -48174; -30074; -913; -48174; -31776; -913; -48174; -33478; -913; -48174; -35180; -913; -48174; -36882; -913; -48174; -38584; -913; -48174; -40287; -913; -48174; -41989; -913; -48174; -43691; -913; -48174; -45393; -913; -48174; -47095; -913; -48174; -48797; -913; -48174; -50499];
  [11439; -46199; 49866; 11439; -46199; 48164; 11439; -46199; 46462; 11439; -46199; 44760; 11439; -46199; 43058; 11439; -46199; 41356; 11439; -46199; 39654; 11439; -46199; 37952; 11439; -46199; 36250; 11439; -46199; 34548; 11439; -46199; 32846; 11439; -46199; 31144; 11439; -46199; 29442; 11439; -46199; 27739; 11439; -46199; 26037; 11439; -46199; 24335; 11439; -46199; 22633; 11439; -46199; 20931; 11439; -46199; 19229; 11439; -46199; 17527; 11439; -46199; 15825; 11439; -46199; 14123; 11439; -46199; 12421; 11439; -46199; 10719; 11439; -46199; 9017; 11439; -46199; 7315; 11439; -46199; 5613; 11439; -46199; 3910; 11439; -46199; 2208; 11439; -46199; 506; 11439; -46199; -1196; 11439; -46199; -2898; 11439; -46199; -4600; 11439; -46199; -6302; 11439; -46199; -8004; 11439; -46199; -9706; 11439; -46199; -11408; 11439; -46199; -13110; 11439; -46199; -14812; 11439; -46199; -16514; 11439; -46199; -18217; 11439; -46199; -19919; 11439; -46199; -21621; 11439; -46199; -23323; 11439; -46199; -25025; 11439; -46199; -26727; 11439; -46199; -28429; 11439; -46199; -30131; 11439; -46199; -31833; 11439; -46199; -33535; 11439; -46199; -35237; 11439; -46199; -36939; 11439; -46199; -38641; 11439; -46199; -40344; 11439; -46199; -42046; 11439; -46199; -43748; 11439; -46199; -45450; 11439; -46199; -47152; 11439; -46199; -48854; 11439; -46199; -50556];
  [23778; -44242; 50146; 23778; -44242; 48444; 23778; -44242; 46742; 23778; -44242; 45040; 23778; -44242; 43338; 23778; -44242; 41636; 23778; -44242; 39934; 23778; -44242; 38232; 23778; -44242; 36530; 23778; -44242; 34828; 23778; -44242; 33126; 23778; -44242; 31424; 23778; -44242; 29722; 23778; -44242; 28019; 23778; -44242; 26317; 23778; -44242; 24615; 23778; -44242; 22913; 23778; -44242; 21211; 23778; -44242; 19509; 23778; -44242; 17807; 23778; -44242; 16105; 23778; -44242; 14403; 23778; -44242; 12701; 23778; -44242; 10999; 23778; -44242; 9297; 23778; -44242; 7595; 23778; -44242; 5893; 23778; -44242; 4190; 23778; -44242; 2488; 23778; -44242; 786; 23778; -44242; -916; 23778; -44242; -2618; 23778; -44242; -4320; 23778; -44242; -6022; 23778; -44242; -7724; 23778; -44242; -9426; 23778; -44242; -11128; 23778; -44242; -12830; 23778; -44242; -14532; 23778; -44242; -16234; 23778; -44242; -17937; 23778; -44242; -19639; 23778; -44242; -21341; 23778; -44242; -23043; 23778; -44242; -24745; 23778; -44242; -26447; 23778; -44242; -28149; 23778; -44242; -29851; 23778; -44242; -31553; 23778; -44242; -33255; 23778; -44242; -34957; 23778; -44242; -36659; 23778; -44242; -38361; 23778; -44242; -40064; 23778; -44242; -41766; 23778; -44242; -43468; 23778; -44242; -45170; 23778; -44242; -46872; 23778; -44242; -48574; 23778; -44242; -50276];
  [36100; -42283; 49951; 36100; -42283; 48249; 36100; -42283; 46547; 36100; -42283; 44845; 36100; -42283; 43143; 36100; -42283; 41441; 36100; -42283; 39739; 36100; -42283; 38037; 36100; -42283; 36335; 36100; -42283; 34633; 36100; -42283; 32931; 36100; -42283; 31229; 36100; -42283; 29527; 36100; -42283; 27824; 36100; -42283; 26122; 36100; -42283; 24420; 36100; -42283; 22718; 36100; -42283; 21016; 36100; -42283; 19314; 36100; -42283; 17612; 36100; -42283; 15910; 36100; -42283; 14208; 36100; -42283; 12506; 36100; -42283; 10804; 36100; -42283; 9102; 36100; -42283; 7400; 36100; -42283; 5698; 36100; -42283; 3995; 36100; -42283; 2293; 36100; -42283; 591; 36100; -42283; -1111; 36100; -42283; -2813; 36100; -42283; -4515; 36100; -42283; -6217; 36100; -42283; -7919; 36100; -42283; -9621; 36100; -42283; -11323; 36100; -42283; -13025; 36100; -42283; -14727; 36100; -42283; -16429; 36100; -42283; -18132; 36100; -42283; -19834; 36100; -42283; -21536; 36100; -42283; -23238; 36100; -42283; -24940; 36100; -42283; -26642; 36100; -42283; -28344; 36100; -42283; -30046; 36100; -42283; -31748; 36100; -42283; -33450; 36100; -42283; -35152; 36100; -42283; -36854; 36100; -42283; -38556; 36100; -42283; -40259; 36100; -42283; -41961; 36100; -42283; -43663; 36100; -42283; -45365; 36100; -42283; -47067; 36100; -42283; -48769; 36100; -42283; -50471];
  [0; 0; 0; 0; 0; 0; 0; 0; 0; 0; 0; 0; 0; 0; 0; 0; 0; 0; 0; 0; 0; 0; 0; 0; 0; 0; 0; 0; 0; 0; 0; 0; 0; 0; 0; 0; 0; 0; 0; 0; 0; 0; 0; 0; 0; 0; 0; 0; 0; 0; 0; 0; 0; 0; 0; 0; 0; 0; 0; 0; 0; 0; 0; 0; 0; 0; 0; 0; 0; 0; 0; 0; 0; 0; 0; 0; 0; 0; 0; 0; 0; 0; 0; 0; 0; 0; 0; 0; 0; 0; 0; 0; 0; 0; 0; 0; 0; 0; 0; 0; 0; 0; 0; 0; 0; 0; 0; 0; 0; 0; 0; 0; 0; 0; 0; 0; 0; 0; 0; 0; 0; 0; 0; 0; 0; 0; 0; 0; 0; 0; 0; 0; 0; 0; 0; 0; 0; 0; 0; 0; 0; 0; 0; 0; 0; 0; 0; 0; 0; 0; 0; 0; 0; 0; 0; 0; 0; 0; 0; 0; 0; 0; 0; 0; 0; 0; 0; 0; 0; 0; 0; 0; 0; 0; 0; 0; 0; 0; 0; 0];
  [0; 0; 0; 0; 0; 0; 0; 0; 0; 0; 0; 0; 0; 0; 0; 0; 0; 0; 0; 0; 0; 0; 0; 0; 0; 0; 0; 0; 0; 0; 0; 0; 0; 0; 0; 0; 0; 0; 0; 0; 0; 0; 0; 0; 0; 0; 0; 0; 0; 0; 0; 0; 0; 0; 0; 0; 0; 0; 0; 0; 0; 0; 0; 0; 0; 0; 0; 0; 0; 0; 0; 0; 0; 0; 0; 0; 0; 0; 0; 0; 0; 0; 0; 0; 0; 0; 0; 0; 0; 0; 0; 0; 0; 0; 0; 0; 0; 0; 0; 0; 0; 0; 0; 0; 0; 0; 0; 0; 0; 0; 0; 0; 0; 0; 0; 0; 0; 0; 0; 0; 0; 0; 0; 0; 0; 0; 0; 0; 0; 0; 0; 0; 0; 0; 0; 0; 0; 0; 0; 0; 0; 0; 0; 0; 0; 0; 0; 0; 0; 0; 0; 0; 0; 0; 0; 0; 0; 0; 0; 0; 0; 0; 0; 0; 0; 0; 0; 0; 0; 0; 0; 0; 0; 0; 0; 0; 0; 0; 0; 0];
  [0; 0; 0; 0; 0; 0; 0; 0; 0; 0; 0; 0; 0; 0; 0; 0; 0; 0; 0; 0; 0; 0; 0; 0; 0; 0; 0; 0; 0; 0; 0; 0; 0; 0; 0; 0; 0; 0; 0; 0; 0; 0; 0; 0; 0; 0; 0; 0; 0; 0; 0; 0; 0; 0; 0; 0; 0; 0; 0; 0; 0; 0; 0; 0; 0; 0; 0; 0; 0; 0; 0; 0; 0; 0; 0; 0; 0; 0; 0; 0; 0; 0; 0; 0; 0; 0; 0; 0; 0; 0; 0; 0; 0; 0; 0; 0; 0; 0; 0; 0; 0; 0; 0; 0; 0; 0; 0; 0; 0; 0; 0; 0; 0; 0; 0; 0; 0; 0; 0; 0; 0; 0; 0; 0; 0; 0; 0; 0; 0; 0; 0; 0; 0; 0; 0; 0; 0; 0; 0; 0; 0; 0; 0; 0; 0; 0; 0; 0; 0; 0; 0; 0; 0; 0; 0; 0; 0; 0; 0; 0; 0; 0; 0; 0; 0; 0; 0; 0; 0; 0; 0; 0; 0; 0; 0; 0; 0; 0; 0; 0];
  [-33480; -42450; 50059; -33480; -42450; 48357; -33480; -42450; 46655; -33480; -42450; 44953; -33480; -42450; 43251; -33480; -42450; 41549; -33480; -42450; 39847; -33480; -42450; 38145; -33480; -42450; 36443; -33480; -42450; 34741; -33480; -42450; 33039; -33480; -42450; 31337; -33480; -42450; 29635; -33480; -42450; 27932; -33480; -42450; 26230; -33480; -42450; 24528; -33480; -42450; 22826; -33480; -42450; 21124; -33480; -42450; 19422; -33480; -42450; 17720; -33480; -42450; 16018; -33480; -42450; 14316; -33480; -42450; 12614; -33480; -42450; 10912; -33480; -42450; 9210; -33480; -42450; 7508; -33480; -42450; 5806; -33480; -42450; 4103; -33480; -42450; 2401; -33480; -42450; 699; -33480; -42450; -1003; -33480; -42450; -2705; -33480; -42450; -4407; -33480; -42450; -6109; -33480; -42450; -7811; -33480; -42450; -9513; -33480; -42450; -11215; -33480; -42450; -12917; -33480; -42450; -14619; -33480; -42450; -16321; -33480; -42450; -18024; -33480; -42450; -19726; -33480; -42450; -21428; -33480; -42450; -23130; -33480; -42450; -24832; -33480; -42450; -26534; -33480; -42450; -28236; -33480; -42450; -29938; -33480; -42450; -31640; -33480; -42450; -33342; -33480; -42450; -35044; -33480; -42450; -36746; -33480; -42450; -38448; -33480; -42450; -40151; -33480; -42450; -41853; -33480; -42450; -43555; -33480; -42450; -45257; -33480; -42450; -46959; -33480; -42450; -48661; -33480; -42450; -50363];
  [-21135; -40448; 49863; -21135; -40448; 48161; -21135; -40448; 46459; -21135; -40448; 44756; -21135; -40448; 43054; -21135; -40448; 41352; -21135; -40448; 39650; -21135; -40448; 37948; -21135; -40448; 36246; -21135; -40448; 34544; -21135; -40448; 32842; -21135; -40448; 31140; -21135; -40448; 29438; -21135; -40448; 27736; -21135; -40448; 26034; -21135; -40448; 24332; -21135; -40448; 22629; -21135; -40448; 20927; -21135; -40448; 19225; -21135; -40448; 17523; -21135; -40448; 15821; -21135; -40448; 14119; -21135; -40448; 12417; -21135; -40448; 10715; -21135; -40448; 9013; -21135; -40448; 7311; -21135; -40448; 5609; -21135; -40448; 3907; -21135; -40448; 2205; -21135; -40448; 502; -21135; -40448; -1200; -21135; -40448; -2902; -21135; -40448; -4604; -21135; -40448; -6306; -21135; -40448; -8008; -21135; -40448; -9710; -21135; -40448; -11412; -21135; -40448; -13114; -21135; -40448; -14816; -21135; -40448; -16518; -21135; -40448; -18220; -21135; -40448; -19922; -21135; -40448; -21624; -21135; -40448; -23327; -21135; -40448; -25029; -21135; -40448; -26731; -21135; -40448; -28433; -21135; -40448; -30135; -21135; -40448; -31837; -21135; -40448; -33539; -21135; -40448; -35241; -21135; -40448; -36943; -21135; -40448; -38645; -21135; -40448; -40347; -21135; -40448; -42049; -21135; -40448; -43751; -21135; -40448; -45454; -21135; -40448; -47156; -21135; -40448; -49038; -21135; -40448; -50740];
  [-8805; -38430; 50002; -8805; -38430; 48299; -8805; -38430; 46597; -8805; -38430; 44895; -8805; -38430; 43193; -8805; -38430; 41491; -8805; -38430; 39789; -8805; -38430; 38087; -8805; -38430; 36385; -8805; -38430; 34683; -8805; -38430; 32981; -8805; -38430; 31279; -8805; -38430; 29577; -8805; -38430; 27875; -8805; -38430; 26172; -8805; -38430; 24470; -8805; -38430; 22768; -8805; -38430; 21066; -8805; -38430; 19364; -8805; -38430; 17662; -8805; -38430; 15960; -8805; -38430; 14258; -8805; -38430; 12556; -8805; -38430; 10854; -8805; -38430; 9152; -8805; -38430; 7450; -8805; -38430; 5748; -8805; -38430; 4046; -8805; -38430; 2343; -8805; -38430; 641; -8805; -38430; -1061; -8805; -38430; -2763; -8805; -38430; -4465; -8805; -38430; -6167; -8805; -38430; -7869; -8805; -38430; -9571; -8805; -38430; -11273; -8805; -38430; -12975; -8805; -38430; -14677; -8805; -38430; -16379; -8805; -38430; -18081; -8805; -38430; -19784; -8805; -38430; -21486; -8805; -38430; -23188; -8805; -38430; -24890; -8805; -38430; -26592; -8805; -38430; -28294; -8805; -38430; -29996; -8805; -38430; -31698; -8805; -38430; -33400; -8805; -38430; -35102; -8805; -38430; -36804; -8805; -38430; -38506; -8805; -38430; -40208; -8805; -38430; -41911; -8805; -38430; -43613; -8805; -38430; -45315; -8805; -38430; -47017; -8805; -38430; -48719; -8805; -38430; -50483];
  [3554; -36483; 49771; 3554; -36483; 48069; 3554; -36483; 46367; 3554; -36483; 44665; 3554; -36483; 42963; 3554; -36483; 41261; 3554; -36483; 39559; 3554; -36483; 37857; 3554; -36483; 36155; 3554; -36483; 34453; 3554; -36483; 32751; 3554; -36483; 31049; 3554; -36483; 29347; 3554; -36483; 27644; 3554; -36483; 25942; 3554; -36483; 24240; 3554; -36483; 22538; 3554; -36483; 20836; 3554; -36483; 19134; 3554; -36483; 17432; 3554; -36483; 15730; 3554; -36483; 14028; 3554; -36483; 12326; 3554; -36483; 10624; 3554; -36483; 8922; 3554; -36483; 7220; 3554; -36483; 5518; 3554; -36483; 3815; 3554; -36483; 2113; 3554; -36483; 411; 3554; -36483; -1291; 3554; -36483; -2993; 3554; -36483; -4695; 3554; -36483; -6397; 3554; -36483; -8099; 3554; -36483; -9801; 3554; -36483; -11503; 3554; -36483; -13205; 3554; -36483; -14907; 3554; -36483; -16609; 3554; -36483; -18312; 3554; -36483; -20014; 3554; -36483; -21716; 3554; -36483; -23418; 3554; -36483; -25120; 3554; -36483; -26822; 3554; -36483; -28524; 3554; -36483; -30226; 3554; -36483; -31928; 3554; -36483; -33630; 3554; -36483; -35332; 3554; -36483; -37034; 3554; -36483; -38736; 3554; -36483; -40439; 3554; -36483; -42141; 3554; -36483; -43843; 3554; -36483; -45545; 3554; -36483; -47247; 3554; -36483; -48949; 3554; -36483; -50651];
  [15894; -34523; 49983; 15894; -34523; 48281; 15894; -34523; 46579; 15894; -34523; 44877; 15894; -34523; 43175; 15894; -34523; 41473; 15894; -34523; 39771; 15894; -34523; 38069; 15894; -34523; 36367; 15894; -34523; 34665; 15894; -34523; 32963; 15894; -34523; 31261; 15894; -34523; 29559; 15894; -34523; 27856; 15894; -34523; 26154; 15894; -34523; 24452; 15894; -34523; 22750; 15894; -34523; 21048; 15894; -34523; 19346; 15894; -34523; 17644; 15894; -34523; 15942; 15894; -34523; 14240; 15894; -34523; 12538; 15894; -34523; 10836; 15894; -34523; 9134; 15894; -34523; 7432; 15894; -34523; 5730; 15894; -34523; 4027; 15894; -34523; 2325; 15894; -34523; 623; 15894; -34523; -1079; 15894; -34523; -2781; 15894; -34523; -4483; 15894; -34523; -6185; 15894; -34523; -7887; 15894; -34523; -9589; 15894; -34523; -11291; 15894; -34523; -12993; 15894; -34523; -14695; 15894; -34523; -16397; 15894; -34523; -18100; 15894; -34523; -19802; 15894; -34523; -21504; 15894; -34523; -23206; 15894; -34523; -24908; 15894; -34523; -26610; 15894; -34523; -28312; 15894; -34523; -30014; 15894; -34523; -31716; 15894; -34523; -33418; 15894; -34523; -35120; 15894; -34523; -36822; 15894; -34523; -38524; 15894; -34523; -40227; 15894; -34523; -41929; 15894; -34523; -43631; 15894; -34523; -45333; 15894; -34523; -47035; 15894; -34523; -48737; 15894; -34523; -50439];
  [28218; -32574; 49844; 28218; -32574; 48142; 28218; -32574; 46440; 28218; -32574; 44738; 28218; -32574; 43036; 28218; -32574; 41334; 28218; -32574; 39632; 28218; -32574; 37930; 28218; -32574; 36228; 28218; -32574; 34526; 28218; -32574; 32824; 28218; -32574; 31122; 28218; -32574; 29420; 28218; -32574; 27717; 28218; -32574; 26015; 28218; -32574; 24313; 28218; -32574; 22611; 28218; -32574; 20909; 28218; -32574; 19207; 28218; -32574; 17505; 28218; -32574; 15803; 28218; -32574; 14101; 28218; -32574; 12399; 28218; -32574; 10697; 28218; -32574; 8995; 28218; -32574; 7293; 28218; -32574; 5591; 28218; -32574; 3888; 28218; -32574; 2186; 28218; -32574; 484; 28218; -32574; -1218; 28218; -32574; -2920; 28218; -32574; -4622; 28218; -32574; -6324; 28218; -32574; -8026; 28218; -32574; -9728; 28218; -32574; -11430; 28218; -32574; -13132; 28218; -32574; -14834; 28218; -32574; -16536; 28218; -32574; -18239; 28218; -32574; -19941; 28218; -32574; -21643; 28218; -32574; -23345; 28218; -32574; -25047; 28218; -32574; -26749; 28218; -32574; -28451; 28218; -32574; -30153; 28218; -32574; -31855; 28218; -32574; -33557; 28218; -32574; -35259; 28218; -32574; -36961; 28218; -32574; -38663; 28218; -32574; -40366; 28218; -32574; -42068; 28218; -32574; -43770; 28218; -32574; -45472; 28218; -32574; -47174; 28218; -32574; -48876; 28218; -32574; -50578];
  [40583; -30638; 49513; 40583; -30638; 47811; 40583; -30638; 46109; 40583; -30638; 44407; 40583; -30638; 42705; 40583; -30638; 41003; 40583; -30638; 39301; 40583; -30638; 37599; 40583; -30638; 35897; 40583; -30638; 34195; 40583; -30638; 32493; 40583; -30638; 30791; 40583; -30638; 29089; 40583; -30638; 27386; 40583; -30638; 25684; 40583; -30638; 23982; 40583; -30638; 22280; 40583; -30638; 20578; 40583; -30638; 18876; 40583; -30638; 17174; 40583; -30638; 15472; 40583; -30638; 13770; 40583; -30638; 12068; 40583; -30638; 10366; 40583; -30638; 8664; 40583; -30638; 6962; 40583; -30638; 5260; 40583; -30638; 3557; 40583; -30638; 1855; 40583; -30638; 153; 40583; -30638; -1549; 40583; -30638; -3251; 40583; -30638; -4953; 40583; -30638; -6655; 40583; -30638; -8357; 40583; -30638; -10059; 40583; -30638; -11761; 40583; -30638; -13463; 40583; -30638; -15165; 40583; -30638; -16867; 40583; -30638; -18570; 40583; -30638; -20272; 40583; -30638; -21974; 40583; -30638; -23676; 40583; -30638; -25378; 40583; -30638; -27080; 40583; -30638; -28782; 40583; -30638; -30484; 40583; -30638; -32186; 40583; -30638; -33888; 40583; -30638; -35590; 40583; -30638; -37292; 40583; -30638; -38994; 40583; -30638; -40697; 40583; -30638; -42399; 40583; -30638; -44101; 40583; -30638; -45803; 40583; -30638; -47505; 40583; -30638; -49207; 40583; -30638; -50909];
  [0; 0; 0; 0; 0; 0; 0; 0; 0; 0; 0; 0; 0; 0; 0; 0; 0; 0; 0; 0; 0; 0; 0; 0; 0; 0; 0; 0; 0; 0; 0; 0; 0; 0; 0; 0; 0; 0; 0; 0; 0; 0; 0; 0; 0; 0; 0; 0; 0; 0; 0; 0; 0; 0; 0; 0; 0; 0; 0; 0; 0; 0; 0; 0; 0; 0; 0; 0; 0; 0; 0; 0; 0; 0; 0; 0; 0; 0; 0; 0; 0; 0; 0; 0; 0; 0; 0; 0; 0; 0; 0; 0; 0; 0; 0; 0; 0; 0; 0; 0; 0; 0; 0; 0; 0; 0; 0; 0; 0; 0; 0; 0; 0; 0; 0; 0; 0; 0; 0; 0; 0; 0; 0; 0; 0; 0; 0; 0; 0; 0; 0; 0; 0; 0; 0; 0; 0; 0; 0; 0; 0; 0; 0; 0; 0; 0; 0; 0; 0; 0; 0; 0; 0; 0; 0; 0; 0; 0; 0; 0; 0; 0; 0; 0; 0; 0; 0; 0; 0; 0; 0; 0; 0; 0; 0; 0; 0; 0; 0; 0];
  [0; 0; 0; 0; 0; 0; 0; 0; 0; 0; 0; 0; 0; 0; 0; 0; 0; 0; 0; 0; 0; 0; 0; 0; 0; 0; 0; 0; 0; 0; 0; 0; 0; 0; 0; 0; 0; 0; 0; 0; 0; 0; 0; 0; 0; 0; 0; 0; 0; 0; 0; 0; 0; 0; 0; 0; 0; 0; 0; 0; 0; 0; 0; 0; 0; 0; 0; 0; 0; 0; 0; 0; 0; 0; 0; 0; 0; 0; 0; 0; 0; 0; 0; 0; 0; 0; 0; 0; 0; 0; 0; 0; 0; 0; 0; 0; 0; 0; 0; 0; 0; 0; 0; 0; 0; 0; 0; 0; 0; 0; 0; 0; 0; 0; 0; 0; 0; 0; 0; 0; 0; 0; 0; 0; 0; 0; 0; 0; 0; 0; 0; 0; 0; 0; 0; 0; 0; 0; 0; 0; 0; 0; 0; 0; 0; 0; 0; 0; 0; 0; 0; 0; 0; 0; 0; 0; 0; 0; 0; 0; 0; 0; 0; 0; 0; 0; 0; 0; 0; 0; 0; 0; 0; 0; 0; 0; 0; 0; 0; 0];
  [-41346; -32727; 49959; -41346; -32727; 48257; -41346; -32727; 46555; -41346; -32727; 44853; -41346; -32727; 43151; -41346; -32727; 41449; -41346; -32727; 39747; -41346; -32727; 38045; -41346; -32727; 36343; -41346; -32727; 34641; -41346; -32727; 32939; -41346; -32727; 31237; -41346; -32727; 29535; -41346; -32727; 27832; -41346; -32727; 26130; -41346; -32727; 24428; -41346; -32727; 22726; -41346; -32727; 21024; -41346; -32727; 19322; -41346; -32727; 17620; -41346; -32727; 15918; -41346; -32727; 14216; -41346; -32727; 12514; -41346; -32727; 10812; -41346; -32727; 9110; -41346; -32727; 7408; -41346; -32727; 5706; -41346; -32727; 4003; -41346; -32727; 2301; -41346; -32727; 599; -41346; -32727; -1103; -41346; -32727; -2805; -41346; -32727; -4507; -41346; -32727; -6209; -41346; -32727; -7911; -41346; -32727; -9613; -41346; -32727; -11315; -41346; -32727; -13017; -41346; -32727; -14719; -41346; -32727; -16421; -41346; -32727; -18124; -41346; -32727; -19826; -41346; -32727; -21528; -41346; -32727; -23230; -41346; -32727; -24932; -41346; -32727; -26634; -41346; -32727; -28336; -41346; -32727; -30038; -41346; -32727; -31740; -41346; -32727; -33442; -41346; -32727; -35144; -41346; -32727; -36846; -41346; -32727; -38548; -41346; -32727; -40251; -41346; -32727; -41953; -41346; -32727; -43655; -41346; -32727; -45357; -41346; -32727; -47059; -41346; -32727; -48761; -41346; -32727; -50463];
  [-29066; -30738; 50402; -29066; -30738; 48700; -29066; -30738; 46998; -29066; -30738; 45296; -29066; -30738; 43594; -29066; -30738; 41892; -29066; -30738; 40190; -29066; -30738; 38488; -29066; -30738; 36786; -29066; -30738; 35084; -29066; -30738; 33382; -29066; -30738; 31680; -29066; -30738; 29978; -29066; -30738; 28275; -29066; -30738; 26573; -29066; -30738; 24871; -29066; -30738; 23169; -29066; -30738; 21467; -29066; -30738; 19765; -29066; -30738; 18063; -29066; -30738; 16361; -29066; -30738; 14659; -29066; -30738; 12957; -29066; -30738; 11255; -29066; -30738; 9565; -29066; -30738; 7863; -29066; -30738; 6161; -29066; -30738; 4458; -29066; -30738; 2756; -29066; -30738; 1054; -29066; -30738; -648; -29066; -30738; -2350; -29066; -30738; -4052; -29066; -30738; -5754; -29066; -30738; -7456; -29066; -30738; -9158; -29066; -30738; -10860; -29066; -30738; -12562; -29066; -30738; -14264; -29066; -30738; -15966; -29066; -30738; -17669; -29066; -30738; -19371; -29066; -30738; -21073; -29066; -30738; -22775; -29066; -30738; -24477; -29066; -30738; -26179; -29066; -30738; -27881; -29066; -30738; -29583; -29066; -30738; -31285; -29066; -30738; -32987; -29066; -30738; -34689; -29066; -30738; -36391; -29066; -30738; -38093; -29066; -30738; -39796; -29066; -30738; -41498; -29066; -30738; -43200; -29066; -30738; -44902; -29066; -30738; -46604; -29066; -30738; -48306; -29066; -30738; -50008];
  [-16640; -28779; 49778; -16640; -28779; 48051; -16640; -28779; 46349; -16640; -28779; 44647; -16640; -28779; 42945; -16640; -28779; 41243; -16640; -28779; 39541; -16640; -28779; 37839; -16640; -28779; 36137; -16640; -28779; 34435; -16640; -28779; 32733; -16640; -28779; 31031; -16640; -28779; 29329; -16640; -28779; 27626; -16640; -28779; 25924; -16640; -28779; 24222; -16640; -28779; 22520; -16640; -28779; 20830; -16640; -28779; 19128; -16640; -28779; 17426; -16640; -28779; 15724; -16640; -28779; 14022; -16640; -28779; 12320; -16640; -28779; 10618; -16640; -28779; 8916; -16640; -28779; 7214; -16640; -28779; 5511; -16640; -28779; 3809; -16640; -28779; 2107; -16640; -28779; 405; -16640; -28779; -1297; -16640; -28779; -2999; -16640; -28779; -4701; -16640; -28779; -6403; -16640; -28779; -8105; -16640; -28779; -9807; -16640; -28779; -11509; -16640; -28779; -13211; -16640; -28779; -14913; -16640; -28779; -16615; -16640; -28779; -18318; -16640; -28779; -20020; -16640; -28779; -21722; -16640; -28779; -23424; -16640; -28779; -25126; -16640; -28779; -26828; -16640; -28779; -28530; -16640; -28779; -30232; -16640; -28779; -31934; -16640; -28779; -33636; -16640; -28779; -35338; -16640; -28779; -37040; -16640; -28779; -38729; -16640; -28779; -40432; -16640; -28779; -42134; -16640; -28779; -43836; -16640; -28779; -45538; -16640; -28779; -47240; -16640; -28779; -48942; -16640; -28779; -50644];
  [-4327; -26752; 50043; -4327; -26752; 48310; -4327; -26752; 46608; -4327; -26752; 44906; -4327; -26752; 43204; -4327; -26752; 41502; -4327; -26752; 39800; -4327; -26752; 38098; -4327; -26752; 36396; -4327; -26752; 34694; -4327; -26752; 32992; -4327; -26752; 31290; -4327; -26752; 29588; -4327; -26752; 27885; -4327; -26752; 26183; -4327; -26752; 24481; -4327; -26752; 22779; -4327; -26752; 21077; -4327; -26752; 19375; -4327; -26752; 17673; -4327; -26752; 15971; -4327; -26752; 14269; -4327; -26752; 12567; -4327; -26752; 10865; -4327; -26752; 9163; -4327; -26752; 7461; -4327; -26752; 5759; -4327; -26752; 4056; -4327; -26752; 2354; -4327; -26752; 652; -4327; -26752; -1050; -4327; -26752; -2752; -4327; -26752; -4454; -4327; -26752; -6156; -4327; -26752; -7858; -4327; -26752; -9560; -4327; -26752; -11262; -4327; -26752; -12964; -4327; -26752; -14666; -4327; -26752; -16368; -4327; -26752; -18071; -4327; -26752; -19773; -4327; -26752; -21475; -4327; -26752; -23177; -4327; -26752; -24879; -4327; -26752; -26581; -4327; -26752; -28283; -4327; -26752; -29985; -4327; -26752; -31687; -4327; -26752; -33389; -4327; -26752; -35091; -4327; -26752; -36793; -4327; -26752; -38495; -4327; -26752; -40198; -4327; -26752; -41900; -4327; -26752; -43602; -4327; -26752; -45304; -4327; -26752; -47006; -4327; -26752; -48708; -4327; -26752; -50410];
  [7941; -24824; 49890; 7941; -24824; 48188; 7941; -24824; 46486; 7941; -24824; 44784; 7941; -24824; 43082; 7941; -24824; 41380; 7941; -24824; 39678; 7941; -24824; 37976; 7941; -24824; 36274; 7941; -24824; 34572; 7941; -24824; 32870; 7941; -24824; 31168; 7941; -24824; 29466; 7941; -24824; 27763; 7941; -24824; 26061; 7941; -24824; 24359; 7941; -24824; 22657; 7941; -24824; 20955; 7941; -24824; 19253; 7941; -24824; 17551; 7941; -24824; 15849; 7941; -24824; 14147; 7941; -24824; 12445; 7941; -24824; 10743; 7941; -24824; 9041; 7941; -24824; 7339; 7941; -24824; 5637; 7941; -24824; 3934; 7941; -24824; 2232; 7941; -24824; 530; 7941; -24824; -1172; 7941; -24824; -2874; 7941; -24824; -4576; 7941; -24824; -6278; 7941; -24824; -7980; 7941; -24824; -9682; 7941; -24824; -11384; 7941; -24824; -13086; 7941; -24824; -14788; 7941; -24824; -16490; 7941; -24824; -18193; 7941; -24824; -19895; 7941; -24824; -21597; 7941; -24824; -23299; 7941; -24824; -25001; 7941; -24824; -26703; 7941; -24824; -28405; 7941; -24824; -30107; 7941; -24824; -31809; 7941; -24824; -33511; 7941; -24824; -35213; 7941; -24824; -36915; 7941; -24824; -38617; 7941; -24824; -40320; 7941; -24824; -42022; 7941; -24824; -43724; 7941; -24824; -45426; 7941; -24824; -47128; 7941; -24824; -48830; 7941; -24824; -50532];
  [21047; -20977; 49694; 21047; -20977; 47992; 21047; -20977; 46290; 21047; -20977; 44588; 21047; -20977; 42886; 21047; -20977; 41184; 21047; -20977; 39482; 21047; -20977; 37780; 21047; -20977; 36078; 21047; -20977; 34376; 21047; -20977; 32674; 21047; -20977; 30972; 21047; -20977; 29270; 21047; -20977; 27567; 21047; -20977; 25865; 21047; -20977; 24163; 21047; -20977; 22461; 21047; -20977; 20759; 21047; -20977; 19057; 21047; -20977; 17355; 21047; -20977; 15653; 21047; -20977; 13951; 21047; -20977; 12249; 21047; -20977; 10547; 21047; -20977; 8845; 21047; -20977; 7143; 21047; -20977; 5441; 21047; -20977; 3738; 21047; -20977; 2036; 21047; -20977; 334; 21047; -20977; -1368; 21047; -20977; -3070; 21047; -20977; -4772; 21047; -20977; -6474; 21047; -20977; -8176; 21047; -20977; -9878; 21047; -20977; -11580; 21047; -20977; -13282; 21047; -20977; -14984; 21047; -20977; -16686; 21047; -20977; -18389; 21047; -20977; -20091; 21047; -20977; -21793; 21047; -20977; -23495; 21047; -20977; -25197; 21047; -20977; -26899; 21047; -20977; -28601; 21047; -20977; -30303; 21047; -20977; -32005; 21047; -20977; -33707; 21047; -20977; -35409; 21047; -20977; -37111; 21047; -20977; -38813; 21047; -20977; -40516; 21047; -20977; -42218; 21047; -20977; -43920; 21047; -20977; -45622; 21047; -20977; -47324; 21047; -20977; -49026; 21047; -20977; -50728];
  [32685; -20907; 49842; 32685; -20907; 48140; 32685; -20907; 46438; 32685; -20907; 44736; 32685; -20907; 43034; 32685; -20907; 41332; 32685; -20907; 39630; 32685; -20907; 37928; 32685; -20907; 36226; 32685; -20907; 34524; 32685; -20907; 32822; 32685; -20907; 31120; 32685; -20907; 29418; 32685; -20907; 27715; 32685; -20907; 26013; 32685; -20907; 24311; 32685; -20907; 22609; 32685; -20907; 20907; 32685; -20907; 19205; 32685; -20907; 17503; 32685; -20907; 15801; 32685; -20907; 14099; 32685; -20907; 12397; 32685; -20907; 10695; 32685; -20907; 8993; 32685; -20907; 7291; 32685; -20907; 5589; 32685; -20907; 3886; 32685; -20907; 2184; 32685; -20907; 482; 32685; -20907; -1220; 32685; -20907; -2922; 32685; -20907; -4624; 32685; -20907; -6326; 32685; -20907; -8028; 32685; -20907; -9730; 32685; -20907; -11432; 32685; -20907; -13134; 32685; -20907; -14836; 32685; -20907; -16538; 32685; -20907; -18241; 32685; -20907; -19943; 32685; -20907; -21645; 32685; -20907; -23347; 32685; -20907; -25049; 32685; -20907; -26751; 32685; -20907; -28453; 32685; -20907; -30155; 32685; -20907; -31857; 32685; -20907; -33559; 32685; -20907; -35261; 32685; -20907; -36963; 32685; -20907; -38665; 32685; -20907; -40368; 32685; -20907; -42070; 32685; -20907; -43772; 32685; -20907; -45474; 32685; -20907; -47176; 32685; -20907; -48878; 32685; -20907; -50580];
  [44360; -19416; 51667; 44360; -19412; 49965; 44363; -19408; 48263; 44366; -19404; 46561; 44370; -19402; 44859; 44375; -19401; 43157; 44380; -19401; 41455; 44385; -19402; 39753; 44389; -19404; 38051; 44393; -19408; 36349; 44396; -19412; 34647; 44396; -19417; 32945; 44395; -19422; 31243; 44392; -19426; 29540; 44388; -19429; 27838; 44384; -19431; 26136; 44380; -19431; 24434; 44375; -19429; 22732; 44372; -19426; 21030; 44372; -19421; 19328; 44375; -19417; 17626; 44380; -19416; 15924; 44385; -19418; 14222; 44388; -19422; 12520; 44392; -19425; 10818; 44395; -19429; 9116; 44396; -19434; 7414; 44396; -19438; 5711; 44394; -19443; 4009; 44392; -19447; 2307; 44389; -19450; 605; 44385; -19452; -1097; 44380; -19452; -2799; 44375; -19452; -4501; 44371; -19452; -6203; 44366; -19452; -7905; 44362; -19451; -9607; 44358; -19449; -11309; 44354; -19446; -13011; 44350; -19443; -14713; 44347; -19440; -16416; 44344; -19435; -18118; 44343; -19430; -19820; 44343; -19425; -21522; 44346; -19421; -23224; 44350; -19418; -24926; 44355; -19416; -26628; 44359; -19418; -28130; 44365; -19420; -30032; 44368; -19423; -31534; 44372; -19427; -33436; 44375; -19431; -35138; 44378; -19434; -36840; 44381; -19438; -38543; 44385; -19442; -40245; 44389; -19444; -41746; 44393; -19447; -43649; 44396; -19449; -45151; 44400; -19448; -47053; 44405; -19446; -48755];
  [0; 0; 0; 0; 0; 0; 0; 0; 0; 0; 0; 0; 0; 0; 0; 0; 0; 0; 0; 0; 0; 0; 0; 0; 0; 0; 0; 0; 0; 0; 0; 0; 0; 0; 0; 0; 0; 0; 0; 0; 0; 0; 0; 0; 0; 0; 0; 0; 0; 0; 0; 0; 0; 0; 0; 0; 0; 0; 0; 0; 0; 0; 0; 0; 0; 0; 0; 0; 0; 0; 0; 0; 0; 0; 0; 0; 0; 0; 0; 0; 0; 0; 0; 0; 0; 0; 0; 0; 0; 0; 0; 0; 0; 0; 0; 0; 0; 0; 0; 0; 0; 0; 0; 0; 0; 0; 0; 0; 0; 0; 0; 0; 0; 0; 0; 0; 0; 0; 0; 0; 0; 0; 0; 0; 0; 0; 0; 0; 0; 0; 0; 0; 0; 0; 0; 0; 0; 0; 0; 0; 0; 0; 0; 0; 0; 0; 0; 0; 0; 0; 0; 0; 0; 0; 0; 0; 0; 0; 0; 0; 0; 0; 0; 0; 0; 0; 0; 0; 0; 0; 0; 0; 0; 0; 0; 0; 0; 0; 0; 0];
  [-49243; -23016; 49760; -49243; -23016; 48058; -49243; -23016; 46356; -49243; -23016; 44654; -49243; -23016; 42952; -49243; -23016; 41250; -49243; -23016; 39548; -49243; -23016; 37846; -49243; -23016; 36144; -49243; -23016; 34442; -49243; -23016; 32740; -49243; -23016; 31038; -49243; -23016; 29336; -49243; -23016; 27633; -49243; -23016; 25931; -49243; -23016; 24229; -49243; -23016; 22527; -49243; -23016; 20825; -49243; -23016; 19123; -49243; -23016; 17421; -49243; -23016; 15719; -49243; -23016; 14017; -49243; -23016; 12315; -49243; -23016; 10613; -49243; -23016; 8911; -49243; -23016; 7209; -49243; -23016; 5507; -49243; -23016; 3804; -49243; -23016; 2102; -49243; -23016; 400; -49243; -23016; -1302; -49243; -23016; -3004; -49243; -23016; -4706; -49243; -23016; -6408; -49243; -23016; -8110; -49243; -23016; -9812; -49243; -23016; -11514; -49243; -23016; -13216; -49243; -23016; -14918; -49243; -23016; -16620; -49243; -23016; -18323; -49243; -23016; -20025; -49243; -23016; -21727; -49243; -23016; -23429; -49243; -23016; -25131; -49243; -23016; -26833; -49243; -23016; -28535; -49243; -23016; -30237; -49243; -23016; -31939; -49243; -23016; -33641; -49243; -23016; -35343; -49243; -23016; -37045; -49243; -23016; -38747; -49243; -23016; -40450; -49243; -23016; -42152; -49243; -23016; -43854; -49243; -23016; -45556; -49243; -23016; -47258; -49243; -23016; -48960; -49243; -23016; -50662];
  [-36893; -21023; 50053; -36893; -21023; 48351; -36893; -21023; 46649; -36893; -21023; 44947; -36893; -21023; 43245; -36893; -21023; 41543; -36893; -21023; 39841; -36893; -21023; 38139; -36893; -21023; 36437; -36893; -21023; 34735; -36893; -21023; 33033; -36893; -21023; 31331; -36893; -21023; 29629; -36893; -21023; 27926; -36893; -21023; 26224; -36893; -21023; 24522; -36893; -21023; 22820; -36893; -21023; 21118; -36893; -21023; 19416; -36893; -21023; 17714; -36893; -21023; 16012; -36893; -21023; 14310; -36893; -21023; 12608; -36893; -21023; 10906; -36893; -21023; 9204; -36893; -21023; 7502; -36893; -21023; 5800; -36893; -21023; 4097; -36893; -21023; 2395; -36893; -21023; 693; -36893; -21023; -1009; -36893; -21023; -2711; -36893; -21023; -4413; -36893; -21023; -6115; -36893; -21023; -7817; -36893; -21023; -9519; -36893; -21023; -11221; -36893; -21023; -12923; -36893; -21023; -14625; -36893; -21023; -16327; -36893; -21023; -18030; -36893; -21023; -19732; -36893; -21023; -21434; -36893; -21023; -23136; -36893; -21023; -24838; -36893; -21023; -26540; -36893; -21023; -28242; -36893; -21023; -29944; -36893; -21023; -31646; -36893; -21023; -33348; -36893; -21023; -35050; -36893; -21023; -36752; -36893; -21023; -38454; -36893; -21023; -40157; -36893; -21023; -41859; -36893; -21023; -43561; -36893; -21023; -45263; -36893; -21023; -46965; -36893; -21023; -48667; -36893; -21023; -50369];
  [-24565; -19049; 50148; -24565; -19049; 48446; -24565; -19049; 46744; -24565; -19049; 45042; -24565; -19049; 43340; -24565; -19049; 41638; -24565; -19049; 39936; -24565; -19049; 38234; -24565; -19049; 36532; -24565; -19049; 34830; -24565; -19049; 33128; -24565; -19049; 31426; -24565; -19049; 29723; -24565; -19049; 28021; -24565; -19049; 26319; -24565; -19049; 24617; -24565; -19049; 22915; -24565; -19049; 21213; -24565; -19049; 19511; -24565; -19049; 17809; -24565; -19049; 16107; -24565; -19049; 14405; -24565; -19049; 12703; -24565; -19049; 11001; -24565; -19049; 9299; -24565; -19049; 7596; -24565; -19049; 5894; -24565; -19049; 4192; -24565; -19049; 2490; -24565; -19049; 788; -24565; -19049; -914; -24565; -19049; -2603; -24565; -19049; -4293; -24565; -19049; -5995; -24565; -19049; -7697; -24565; -19049; -9399; -24565; -19049; -11088; -24565; -19049; -12790; -24565; -19049; -14492; -24565; -19049; -16195; -24565; -19049; -17897; -24565; -19049; -19599; -24565; -19049; -21301; -24565; -19049; -23003; -24565; -19049; -24705; -24565; -19049; -26407; -24565; -19049; -28109; -24565; -19049; -29811; -24565; -19049; -31513; -24565; -19049; -33215; -24565; -19049; -34917; -24565; -19049; -36619; -24565; -19049; -38322; -24565; -19049; -40024; -24565; -19049; -41726; -24565; -19049; -43415; -24565; -19049; -45107; -24565; -19049; -46797; -24565; -19049; -48499; -24565; -19049; -50201];
  [-12177; -17103; 50227; -12177; -17103; 48525; -12177; -17103; 46823; -12177; -17103; 45121; -12177; -17103; 43419; -12177; -17103; 41717; -12177; -17103; 40015; -12177; -17103; 38313; -12177; -17103; 36611; -12177; -17103; 34909; -12177; -17103; 33207; -12177; -17103; 31505; -12177; -17103; 29803; -12177; -17103; 28100; -12177; -17103; 26398; -12177; -17103; 24696; -12177; -17103; 22994; -12177; -17103; 21292; -12177; -17103; 19590; -12177; -17103; 17888; -12177; -17103; 16186; -12177; -17103; 14484; -12177; -17103; 12782; -12177; -17103; 11080; -12177; -17103; 9378; -12177; -17103; 7676; -12177; -17103; 5973; -12177; -17103; 4271; -12177; -17103; 2569; -12177; -17103; 867; -12177; -17103; -835; -12177; -17103; -2537; -12177; -17103; -4239; -12177; -17103; -5941; -12177; -17103; -7643; -12177; -17103; -9345; -12177; -17103; -11047; -12177; -17103; -12749; -12177; -17103; -14451; -12177; -17103; -16154; -12177; -17103; -17856; -12177; -17103; -19558; -12177; -17103; -21260; -12177; -17103; -22962; -12177; -17103; -24664; -12177; -17103; -26366; -12177; -17103; -28068; -12177; -17103; -29757; -12177; -17103; -31459; -12177; -17103; -33149; -12177; -17103; -34851; -12177; -17103; -36553; -12177; -17103; -38255; -12177; -17103; -39958; -12177; -17103; -41660; -12177; -17103; -43348; -12177; -17103; -45050; -12177; -17103; -46752; -12177; -17103; -48454; -12177; -17103; -50156];
  [171; -15063; 49725; 171; -15063; 48023; 171; -15063; 46321; 171; -15063; 44619; 171; -15063; 42917; 171; -15063; 41215; 171; -15063; 39513; 171; -15063; 37811; 171; -15063; 36109; 171; -15063; 34407; 171; -15063; 32705; 171; -15063; 31003; 171; -15063; 29301; 171; -15063; 27598; 171; -15063; 25896; 171; -15063; 24194; 171; -15063; 22492; 171; -15063; 20790; 171; -15063; 19088; 171; -15063; 17386; 171; -15063; 15684; 171; -15063; 13982; 171; -15063; 12280; 171; -15063; 10578; 171; -15063; 8876; 171; -15063; 7174; 171; -15063; 5472; 171; -15063; 3769; 171; -15063; 2067; 171; -15063; 365; 171; -15063; -1337; 171; -15063; -3039; 171; -15063; -4741; 171; -15063; -6443; 171; -15063; -8145; 171; -15063; -9847; 171; -15063; -11549; 171; -15063; -13251; 171; -15063; -14953; 171; -15063; -16655; 171; -15063; -18358; 171; -15063; -20060; 171; -15063; -21762; 171; -15063; -23464; 171; -15063; -25166; 171; -15063; -26868; 171; -15063; -28570; 171; -15063; -30272; 171; -15063; -31974; 171; -15063; -33676; 171; -15063; -35378; 171; -15063; -37080; 171; -15063; -38782; 171; -15063; -40485; 171; -15063; -42187; 171; -15063; -43889; 171; -15063; -45591; 171; -15063; -47293; 171; -15063; -48995; 171; -15063; -50697];
  [12497; -13125; 49365; 12497; -13125; 47663; 12497; -13125; 45961; 12497; -13125; 44259; 12497; -13125; 42557; 12497; -13125; 40855; 12497; -13125; 39153; 12497; -13125; 37451; 12497; -13125; 35749; 12497; -13125; 34047; 12497; -13125; 32345; 12497; -13125; 30643; 12497; -13125; 28941; 12497; -13125; 27238; 12497; -13125; 25536; 12497; -13125; 23834; 12497; -13125; 22132; 12497; -13125; 20430; 12497; -13125; 18728; 12497; -13125; 17026; 12497; -13125; 15324; 12497; -13125; 13622; 12497; -13125; 11920; 12497; -13125; 10218; 12497; -13125; 8516; 12497; -13125; 6814; 12497; -13125; 5112; 12497; -13125; 3409; 12497; -13125; 1707; 12497; -13125; 5; 12497; -13125; -1697; 12497; -13125; -3399; 12497; -13125; -5101; 12497; -13125; -6803; 12497; -13125; -8505; 12497; -13125; -10207; 12497; -13125; -11909; 12497; -13125; -13611; 12497; -13125; -15313; 12497; -13125; -17015; 12497; -13125; -18718; 12497; -13125; -20420; 12497; -13125; -22122; 12497; -13125; -23824; 12497; -13125; -25526; 12497; -13125; -27228; 12497; -13125; -28930; 12497; -13125; -30632; 12497; -13125; -32334; 12497; -13125; -34036; 12497; -13125; -35738; 12497; -13125; -37440; 12497; -13125; -39142; 12497; -13125; -40845; 12497; -13125; -42547; 12497; -13125; -44249; 12497; -13125; -45951; 12497; -13125; -47653; 12497; -13125; -49355; 12497; -13125; -51057];
  [24815; -11187; 49834; 24815; -11187; 48101; 24815; -11187; 46399; 24815; -11187; 44697; 24815; -11187; 42995; 24815; -11187; 41293; 24815; -11187; 39591; 24815; -11187; 37889; 24815; -11187; 36187; 24815; -11187; 34485; 24815; -11187; 32783; 24815; -11187; 31081; 24815; -11187; 29379; 24815; -11187; 27676; 24815; -11187; 25974; 24815; -11187; 24272; 24815; -11187; 22570; 24815; -11187; 20868; 24815; -11187; 19166; 24815; -11187; 17464; 24815; -11187; 15762; 24815; -11187; 14060; 24815; -11187; 12358; 24815; -11187; 10656; 24815; -11187; 8954; 24815; -11187; 7252; 24815; -11187; 5550; 24815; -11187; 3847; 24815; -11187; 2145; 24815; -11187; 443; 24815; -11187; -1259; 24815; -11187; -2961; 24815; -11187; -4663; 24815; -11187; -6365; 24815; -11187; -8067; 24815; -11187; -9769; 24815; -11187; -11471; 24815; -11187; -13173; 24815; -11187; -14875; 24815; -11187; -16577; 24815; -11187; -18280; 24815; -11187; -19982; 24815; -11187; -21684; 24815; -11187; -23386; 24815; -11187; -25088; 24815; -11187; -26790; 24815; -11187; -28492; 24815; -11187; -30194; 24815; -11187; -31896; 24815; -11187; -33598; 24815; -11187; -35300; 24815; -11187; -37002; 24815; -11187; -38704; 24815; -11187; -40407; 24815; -11187; -42109; 24815; -11187; -43811; 24815; -11187; -45513; 24815; -11187; -47215; 24815; -11187; -48917; 24815; -11187; -50619];
  [37156; -9218; 50158; 37156; -9218; 48556; 37156; -9218; 46754; 37156; -9218; 45152; 37156; -9218; 43350; 37156; -9218; 41748; 37156; -9218; 39946; 37156; -9218; 38344; 37156; -9218; 36542; 37156; -9218; 34940; 37156; -9218; 33138; 37156; -9218; 31536; 37156; -9218; 29733; 37156; -9218; 28131; 37156; -9218; 26329; 37156; -9218; 24727; 37156; -9218; 22925; 37156; -9218; 21323; 37156; -9218; 19521; 37156; -9218; 17919; 37156; -9218; 16117; 37156; -9218; 14515; 37156; -9218; 12713; 37156; -9218; 11111; 37156; -9218; 9309; 37156; -9218; 7707; 37156; -9218; 5904; 37156; -9218; 4302; 37156; -9218; 2500; 37156; -9218; 898; 37156; -9218; -904; 37156; -9218; -2506; 37156; -9218; -4308; 37156; -9218; -5910; 37156; -9218; -7712; 37156; -9218; -9314; 37156; -9218; -11116; 37156; -9218; -12718; 37156; -9218; -14521; 37156; -9218; -16122; 37156; -9218; -17925; 37156; -9218; -19527; 37156; -9218; -21329; 37156; -9218; -22931; 37156; -9218; -24733; 37156; -9218; -26335; 37156; -9218; -28137; 37156; -9218; -29739; 37156; -9218; -31541; 37156; -9218; -33143; 37156; -9218; -34945; 37156; -9218; -36547; 37156; -9218; -38350; 37156; -9218; -39952; 37156; -9218; -41754; 37156; -9218; -43356; 37156; -9218; -45158; 37156; -9218; -46760; 37156; -9218; -48562; 37156; -9218; -50164];
  [50043; -5845; 50185; 50043; -5845; 48483; 50043; -5845; 46781; 50043; -5845; 45079; 50043; -5845; 43377; 50043; -5845; 41675; 50043; -5845; 39973; 50043; -5845; 38271; 50043; -5845; 36569; 50043; -5845; 34867; 50043; -5845; 33165; 50043; -5845; 31463; 50043; -5845; 29761; 50043; -5845; 28058; 50043; -5845; 26356; 50043; -5845; 24654; 50043; -5845; 22952; 50043; -5845; 21250; 50043; -5845; 19548; 50043; -5845; 17846; 50043; -5845; 16144; 50043; -5845; 14442; 50043; -5845; 12740; 50043; -5845; 11038; 50043; -5845; 9336; 50043; -5845; 7634; 50043; -5845; 5932; 50043; -5845; 4229; 50043; -5845; 2527; 50043; -5845; 825; 50043; -5845; -877; 50043; -5845; -2579; 50043; -5845; -4281; 50043; -5845; -5983; 50043; -5845; -7685; 50043; -5845; -9387; 50043; -5845; -11089; 50043; -5845; -12791; 50043; -5845; -14493; 50043; -5845; -16195; 50043; -5845; -17898; 50043; -5845; -19600; 50043; -5845; -21302; 50043; -5845; -23004; 50043; -5845; -24706; 50043; -5845; -26408; 50043; -5845; -28110; 50043; -5845; -29812; 50043; -5845; -31514; 50043; -5845; -33216; 50043; -5845; -34918; 50043; -5845; -36620; 50043; -5845; -38322; 50043; -5845; -40025; 50043; -5845; -41727; 50043; -5845; -43429; 50043; -5845; -45131; 50043; -5845; -46833; 50043; -5845; -48535; 50043; -5845; -50237];
  [-57090; -12514; 49960; -57090; -12514; 48258; -57090; -12514; 46556; -57090; -12514; 44854; -57090; -12514; 43152; -57090; -12514; 41450; -57090; -12514; 39748; -57090; -12514; 38046; -57090; -12514; 36344; -57090; -12514; 34642; -57090; -12514; 32940; -57090; -12514; 31238; -57090; -12514; 29536; -57090; -12514; 27833; -57090; -12514; 26131; -57090; -12514; 24429; -57090; -12514; 22727; -57090; -12514; 21025; -57090; -12514; 19323; -57090; -12514; 17621; -57090; -12514; 15919; -57090; -12514; 14217; -57090; -12514; 12515; -57090; -12514; 10813; -57090; -12514; 9111; -57090; -12514; 7409; -57090; -12514; 5707; -57090; -12514; 4004; -57090; -12514; 2302; -57090; -12514; 600; -57090; -12514; -1102; -57090; -12514; -2804; -57090; -12514; -4506; -57090; -12514; -6208; -57090; -12514; -7910; -57090; -12514; -9612; -57090; -12514; -11314; -57090; -12514; -13016; -57090; -12514; -14718; -57090; -12514; -16420; -57090; -12514; -18123; -57090; -12514; -19825; -57090; -12514; -21527; -57090; -12514; -23229; -57090; -12514; -24931; -57090; -12514; -26633; -57090; -12514; -28335; -57090; -12514; -30037; -57090; -12514; -31739; -57090; -12514; -33441; -57090; -12514; -35143; -57090; -12514; -36845; -57090; -12514; -38547; -57090; -12514; -40250; -57090; -12514; -41952; -57090; -12514; -43654; -57090; -12514; -45356; -57090; -12514; -47058; -57090; -12514; -48760; -57090; -12514; -50462];
  [-44774; -11313; 50067; -44774; -11313; 48365; -44774; -11313; 46663; -44774; -11313; 44961; -44774; -11313; 43259; -44774; -11313; 41557; -44774; -11313; 39855; -44774; -11313; 38153; -44774; -11313; 36451; -44774; -11313; 34749; -44774; -11313; 33047; -44774; -11313; 31345; -44774; -11313; 29643; -44774; -11313; 27940; -44774; -11313; 26238; -44774; -11313; 24536; -44774; -11313; 22834; -44774; -11313; 21132; -44774; -11313; 19430; -44774; -11313; 17728; -44774; -11313; 16026; -44774; -11313; 14324; -44774; -11313; 12622; -44774; -11313; 10920; -44774; -11313; 9218; -44774; -11313; 7516; -44774; -11313; 5814; -44774; -11313; 4111; -44774; -11313; 2409; -44774; -11313; 707; -44774; -11313; -995; -44774; -11313; -2697; -44774; -11313; -4399; -44774; -11313; -6101; -44774; -11313; -7803; -44774; -11313; -9505; -44774; -11313; -11207; -44774; -11313; -12909; -44774; -11313; -14611; -44774; -11313; -16313; -44774; -11313; -18016; -44774; -11313; -19718; -44774; -11313; -21420; -44774; -11313; -23122; -44774; -11313; -24824; -44774; -11313; -26526; -44774; -11313; -28228; -44774; -11313; -29930; -44774; -11313; -31632; -44774; -11313; -33334; -44774; -11313; -35036; -44774; -11313; -36738; -44774; -11313; -38440; -44774; -11313; -40143; -44774; -11313; -41845; -44774; -11313; -43547; -44774; -11313; -45249; -44774; -11313; -46951; -44774; -11313; -48653; -44774; -11313; -50355];
  [-32439; -9343; 50013; -32439; -9343; 48311; -32439; -9343; 46609; -32439; -9343; 44907; -32439; -9343; 43205; -32439; -9343; 41503; -32439; -9343; 39801; -32439; -9343; 38099; -32439; -9343; 36397; -32439; -9343; 34695; -32439; -9343; 32993; -32439; -9343; 31291; -32439; -9343; 29589; -32439; -9343; 27886; -32439; -9343; 26184; -32439; -9343; 24482; -32439; -9343; 22780; -32439; -9343; 21078; -32439; -9343; 19376; -32439; -9343; 17674; -32439; -9343; 15972; -32439; -9343; 14270; -32439; -9343; 12568; -32439; -9343; 10866; -32439; -9343; 9164; -32439; -9343; 7462; -32439; -9343; 5760; -32439; -9343; 4057; -32439; -9343; 2355; -32439; -9343; 653; -32439; -9343; -1049; -32439; -9343; -2751; -32439; -9343; -4453; -32439; -9343; -6155; -32439; -9343; -7857; -32439; -9343; -9559; -32439; -9343; -11261; -32439; -9343; -12963; -32439; -9343; -14665; -32439; -9343; -16367; -32439; -9343; -18070; -32439; -9343; -19772; -32439; -9343; -21474; -32439; -9343; -23176; -32439; -9343; -24878; -32439; -9343; -26580; -32439; -9343; -28282; -32439; -9343; -29984; -32439; -9343; -31686; -32439; -9343; -33388; -32439; -9343; -35090; -32439; -9343; -36792; -32439; -9343; -38494; -32439; -9343; -40197; -32439; -9343; -41899; -32439; -9343; -43601; -32439; -9343; -45303; -32439; -9343; -47005; -32439; -9343; -48707; -32439; -9343; -50409];
  [-20055; -7403; 52342; -20055; -7403; 50640; -20055; -7403; 48938; -20055; -7403; 47236; -20055; -7403; 45534; -20055; -7403; 43832; -20055; -7403; 42130; -20055; -7403; 40428; -20055; -7403; 38726; -20055; -7403; 37024; -20055; -7403; 35322; -20055; -7403; 33620; -20055; -7403; 31918; -20055; -7403; 30215; -20055; -7403; 28513; -20055; -7403; 26811; -20055; -7403; 25109; -20055; -7403; 23407; -20055; -7403; 21705; -20055; -7403; 20003; -20055; -7403; 18301; -20055; -7403; 16599; -20055; -7403; 14897; -20055; -7403; 13195; -20055; -7403; 11493; -20055; -7403; 9791; -20055; -7403; 8089; -20055; -7403; 6386; -20055; -7403; 4684; -20055; -7403; 2982; -20055; -7403; 1280; -20055; -7403; -422; -20055; -7403; -2124; -20055; -7403; -3826; -20055; -7403; -5528; -20055; -7403; -7230; -20055; -7403; -8932; -20055; -7403; -10634; -20055; -7403; -12336; -20055; -7403; -14038; -20055; -7403; -15741; -20055; -7403; -17443; -20055; -7403; -19145; -20055; -7403; -20847; -20055; -7403; -22549; -20055; -7403; -24251; -20055; -7403; -25953; -20055; -7403; -27655; -20055; -7403; -29357; -20055; -7403; -31059; -20055; -7403; -32761; -20055; -7403; -34463; -20055; -7403; -36165; -20055; -7403; -37868; -20055; -7403; -39570; -20055; -7403; -41272; -20055; -7403; -42974; -20055; -7403; -44676; -20055; -7403; -46378; -20055; -7403; -48080];
  [-7780; -5433; 50270; -7780; -5433; 48568; -7780; -5433; 46866; -7780; -5433; 45164; -7780; -5433; 43462; -7780; -5433; 41760; -7780; -5433; 40058; -7780; -5433; 38356; -7780; -5433; 36654; -7780; -5433; 34952; -7780; -5433; 33250; -7780; -5433; 31548; -7780; -5433; 29846; -7780; -5433; 28143; -7780; -5433; 26441; -7780; -5433; 24739; -7780; -5433; 23037; -7780; -5433; 21335; -7780; -5433; 19633; -7780; -5433; 17931; -7780; -5433; 16229; -7780; -5433; 14527; -7780; -5433; 12825; -7780; -5433; 11123; -7780; -5433; 9421; -7780; -5433; 7719; -7780; -5433; 6017; -7780; -5433; 4314; -7780; -5433; 2612; -7780; -5433; 910; -7780; -5433; -792; -7780; -5433; -2494; -7780; -5433; -4196; -7780; -5433; -5898; -7780; -5433; -7600; -7780; -5433; -9302; -7780; -5433; -11004; -7780; -5433; -12706; -7780; -5433; -14408; -7780; -5433; -16110; -7780; -5433; -17813; -7780; -5433; -19515; -7780; -5433; -21217; -7780; -5433; -22919; -7780; -5433; -24621; -7780; -5433; -26323; -7780; -5433; -28025; -7780; -5433; -29727; -7780; -5433; -31429; -7780; -5433; -33131; -7780; -5433; -34833; -7780; -5433; -36535; -7780; -5433; -38237; -7780; -5433; -39940; -7780; -5433; -41642; -7780; -5433; -43344; -7780; -5433; -45046; -7780; -5433; -46748; -7780; -5433; -48450; -7780; -5433; -50152];
  [4629; -3488; 50097; 4629; -3488; 48395; 4629; -3488; 46693; 4629; -3488; 44991; 4629; -3488; 43289; 4629; -3488; 41587; 4629; -3488; 39885; 4629; -3488; 38183; 4629; -3488; 36481; 4629; -3488; 34779; 4629; -3488; 33077; 4629; -3488; 31375; 4629; -3488; 29673; 4629; -3488; 27970; 4629; -3488; 26268; 4629; -3488; 24566; 4629; -3488; 22864; 4629; -3488; 21162; 4629; -3488; 19460; 4629; -3488; 17758; 4629; -3488; 16056; 4629; -3488; 14354; 4629; -3488; 12652; 4629; -3488; 10950; 4629; -3488; 9248; 4629; -3488; 7546; 4629; -3488; 5844; 4629; -3488; 4141; 4629; -3488; 2439; 4629; -3488; 737; 4629; -3488; -965; 4629; -3488; -2667; 4629; -3488; -4369; 4629; -3488; -6071; 4629; -3488; -7773; 4629; -3488; -9475; 4629; -3488; -11177; 4629; -3488; -12879; 4629; -3488; -14581; 4629; -3488; -16283; 4629; -3488; -17986; 4629; -3488; -19688; 4629; -3488; -21390; 4629; -3488; -23092; 4629; -3488; -24794; 4629; -3488; -26496; 4629; -3488; -28198; 4629; -3488; -29900; 4629; -3488; -31602; 4629; -3488; -33304; 4629; -3488; -35006; 4629; -3488; -36708; 4629; -3488; -38410; 4629; -3488; -40113; 4629; -3488; -41815; 4629; -3488; -43517; 4629; -3488; -45219; 4629; -3488; -46921; 4629; -3488; -48623; 4629; -3488; -50325];
  [19434; -3092; 50409; 19434; -3092; 48707; 19434; -3092; 47005; 19434; -3092; 45303; 19434; -3092; 43601; 19434; -3092; 41899; 19434; -3092; 40197; 19434; -3092; 38495; 19434; -3092; 36793; 19434; -3092; 35091; 19434; -3092; 33389; 19434; -3092; 31687; 19434; -3092; 29985; 19434; -3092; 28282; 19434; -3092; 26580; 19434; -3092; 24878; 19434; -3092; 23176; 19434; -3092; 21474; 19434; -3092; 19772; 19434; -3092; 18070; 19434; -3092; 16368; 19434; -3092; 14666; 19434; -3092; 12964; 19434; -3092; 11262; 19434; -3092; 9560; 19434; -3092; 7858; 19434; -3092; 6156; 19434; -3092; 4453; 19434; -3092; 2751; 19434; -3092; 1049; 19434; -3092; -653; 19434; -3092; -2355; 19434; -3092; -4057; 19434; -3092; -5759; 19434; -3092; -7461; 19434; -3092; -9163; 19434; -3092; -10865; 19434; -3092; -12567; 19434; -3092; -14269; 19434; -3092; -15971; 19434; -3092; -17674; 19434; -3092; -19376; 19434; -3092; -21078; 19434; -3092; -22780; 19434; -3092; -24482; 19434; -3092; -26184; 19434; -3092; -27886; 19434; -3092; -29588; 19434; -3092; -31290; 19434; -3092; -32992; 19434; -3092; -34694; 19434; -3092; -36396; 19434; -3092; -38098; 19434; -3092; -39801; 19434; -3092; -41503; 19434; -3092; -43205; 19434; -3092; -44907; 19434; -3092; -46609; 19434; -3092; -48311; 19434; -3092; -50013];
  [29290; 520; 49140; 29290; 520; 47438; 29290; 520; 45736; 29290; 520; 44034; 29290; 520; 42332; 29290; 520; 40630; 29290; 520; 38928; 29290; 520; 37226; 29290; 520; 35524; 29290; 520; 33822; 29290; 520; 32120; 29290; 520; 30418; 29290; 520; 28716; 29290; 520; 27013; 29290; 520; 25311; 29290; 520; 23609; 29290; 520; 21907; 29290; 520; 20205; 29290; 520; 18503; 29290; 520; 16801; 29290; 520; 15099; 29290; 520; 13397; 29290; 520; 11695; 29290; 520; 9993; 29290; 520; 8291; 29290; 520; 6589; 29290; 520; 4887; 29290; 520; 3184; 29290; 520; 1482; 29290; 520; -220; 29290; 520; -1922; 29290; 520; -3624; 29290; 520; -5326; 29290; 520; -7028; 29290; 520; -8730; 29290; 520; -10432; 29290; 520; -12134; 29290; 520; -13836; 29290; 520; -15538; 29290; 520; -17240; 29290; 520; -18943; 29290; 520; -20645; 29290; 520; -22347; 29290; 520; -24049; 29290; 520; -25751; 29290; 520; -27453; 29290; 520; -29155; 29290; 520; -30857; 29290; 520; -32559; 29290; 520; -34261; 29290; 520; -35963; 29290; 520; -37665; 29290; 520; -39367; 29290; 520; -41070; 29290; 520; -42772; 29290; 520; -44474; 29290; 520; -46176; 29290; 520; -47878; 29290; 520; -49580; 29290; 520; -51282];
  [41181; 1300; 50173; 41181; 1300; 48471; 41181; 1300; 46769; 41181; 1300; 45067; 41181; 1300; 43365; 41181; 1300; 41663; 41181; 1300; 39961; 41181; 1300; 38259; 41181; 1300; 36557; 41181; 1300; 34855; 41181; 1300; 33153; 41181; 1300; 31451; 41181; 1300; 29749; 41181; 1300; 28046; 41181; 1300; 26344; 41181; 1300; 24642; 41181; 1300; 22940; 41181; 1300; 21238; 41181; 1300; 19536; 41181; 1300; 17834; 41181; 1300; 16132; 41181; 1300; 14430; 41181; 1300; 12728; 41181; 1300; 11026; 41181; 1300; 9324; 41181; 1300; 7622; 41181; 1300; 5920; 41181; 1300; 4217; 41181; 1300; 2515; 41181; 1300; 813; 41181; 1300; -889; 41181; 1300; -2591; 41181; 1300; -4293; 41181; 1300; -5995; 41181; 1300; -7697; 41181; 1300; -9399; 41181; 1300; -11101; 41181; 1300; -12803; 41181; 1300; -14505; 41181; 1300; -16207; 41181; 1300; -17910; 41181; 1300; -19612; 41181; 1300; -21314; 41181; 1300; -23016; 41181; 1300; -24718; 41181; 1300; -26420; 41181; 1300; -28122; 41181; 1300; -29824; 41181; 1300; -31526; 41181; 1300; -33228; 41181; 1300; -34930; 41181; 1300; -36632; 41181; 1300; -38334; 41181; 1300; -40037; 41181; 1300; -41739; 41181; 1300; -43441; 41181; 1300; -45143; 41181; 1300; -46845; 41181; 1300; -48547; 41181; 1300; -50249];
  [54407; 5589; 50279; 54407; 5589; 48576; 54407; 5589; 46874; 54407; 5589; 45172; 54407; 5589; 43470; 54407; 5589; 41768; 54407; 5589; 40066; 54407; 5589; 38364; 54407; 5589; 36662; 54407; 5589; 34960; 54407; 5589; 33258; 54407; 5589; 31556; 54407; 5589; 29854; 54407; 5589; 28152; 54407; 5589; 26450; 54407; 5589; 24747; 54407; 5589; 23045; 54407; 5589; 21343; 54407; 5589; 19641; 54407; 5589; 17939; 54407; 5589; 16237; 54407; 5589; 14535; 54407; 5589; 12833; 54407; 5589; 11131; 54407; 5589; 9429; 54407; 5589; 7727; 54407; 5589; 6025; 54407; 5589; 4323; 54407; 5589; 2620; 54407; 5589; 918; 54407; 5589; -784; 54407; 5589; -2486; 54407; 5589; -4188; 54407; 5589; -5890; 54407; 5589; -7592; 54407; 5589; -9294; 54407; 5589; -10996; 54407; 5589; -12698; 54407; 5589; -14400; 54407; 5589; -16102; 54407; 5589; -17804; 54407; 5589; -19507; 54407; 5589; -21209; 54407; 5589; -22911; 54407; 5589; -24613; 54407; 5589; -26315; 54407; 5589; -28017; 54407; 5589; -29719; 54407; 5589; -31421; 54407; 5589; -33123; 54407; 5589; -34825; 54407; 5589; -36527; 54407; 5589; -38229; 54407; 5589; -39931; 54407; 5589; -41634; 54407; 5589; -43336; 54407; 5589; -45038; 54407; 5589; -46740; 54407; 5589; -48442; 54407; 5589; -50214];
  [-52663; -1560; 50267; -52663; -1560; 48564; -52663; -1560; 46862; -52663; -1560; 45160; -52663; -1560; 43458; -52663; -1560; 41756; -52663; -1560; 40054; -52663; -1560; 38352; -52663; -1560; 36650; -52663; -1560; 34948; -52663; -1560; 33246; -52663; -1560; 31544; -52663; -1560; 29842; -52663; -1560; 28140; -52663; -1560; 26437; -52663; -1560; 24735; -52663; -1560; 23033; -52663; -1560; 21331; -52663; -1560; 19629; -52663; -1560; 17927; -52663; -1560; 16225; -52663; -1560; 14523; -52663; -1560; 12821; -52663; -1560; 11119; -52663; -1560; 9417; -52663; -1560; 7715; -52663; -1560; 6013; -52663; -1560; 4310; -52663; -1560; 2608; -52663; -1560; 906; -52663; -1560; -796; -52663; -1560; -2498; -52663; -1560; -4200; -52663; -1560; -5902; -52663; -1560; -7604; -52663; -1560; -9306; -52663; -1560; -11008; -52663; -1560; -12710; -52663; -1560; -14412; -52663; -1560; -16114; -52663; -1560; -17817; -52663; -1560; -19519; -52663; -1560; -21221; -52663; -1560; -22923; -52663; -1560; -24625; -52663; -1560; -26327; -52663; -1560; -28029; -52663; -1560; -29731; -52663; -1560; -31433; -52663; -1560; -33135; -52663; -1560; -34837; -52663; -1560; -36539; -52663; -1560; -38241; -52663; -1560; -39943; -52663; -1560; -41646; -52663; -1560; -43348; -52663; -1560; -45050; -52663; -1560; -46752; -52663; -1560; -48454; -52663; -1560; -50201];
  [-40314; 349; 50180; -40314; 349; 48478; -40314; 349; 46776; -40314; 349; 45074; -40314; 349; 43372; -40314; 349; 41670; -40314; 349; 39968; -40314; 349; 38266; -40314; 349; 36564; -40314; 349; 34862; -40314; 349; 33160; -40314; 349; 31458; -40314; 349; 29756; -40314; 349; 28053; -40314; 349; 26351; -40314; 349; 24649; -40314; 349; 22947; -40314; 349; 21245; -40314; 349; 19543; -40314; 349; 17841; -40314; 349; 16139; -40314; 349; 14437; -40314; 349; 12735; -40314; 349; 11033; -40314; 349; 9331; -40314; 349; 7629; -40314; 349; 5927; -40314; 349; 4224; -40314; 349; 2522; -40314; 349; 820; -40314; 349; -882; -40314; 349; -2584; -40314; 349; -4286; -40314; 349; -5988; -40314; 349; -7690; -40314; 349; -9392; -40314; 349; -11094; -40314; 349; -12796; -40314; 349; -14498; -40314; 349; -16200; -40314; 349; -17903; -40314; 349; -19605; -40314; 349; -21307; -40314; 349; -23009; -40314; 349; -24711; -40314; 349; -26413; -40314; 349; -28115; -40314; 349; -29817; -40314; 349; -31519; -40314; 349; -33221; -40314; 349; -34923; -40314; 349; -36625; -40314; 349; -38327; -40314; 349; -40030; -40314; 349; -41732; -40314; 349; -43434; -40314; 349; -45136; -40314; 349; -46838; -40314; 349; -48540; -40314; 349; -50242];
  [-27953; 2317; 50261; -27953; 2317; 48559; -27953; 2317; 46857; -27953; 2317; 45154; -27953; 2317; 43452; -27953; 2317; 41750; -27953; 2317; 40048; -27953; 2317; 38346; -27953; 2317; 36644; -27953; 2317; 34942; -27953; 2317; 33240; -27953; 2317; 31538; -27953; 2317; 29836; -27953; 2317; 28134; -27953; 2317; 26432; -27953; 2317; 24730; -27953; 2317; 23027; -27953; 2317; 21325; -27953; 2317; 19623; -27953; 2317; 17921; -27953; 2317; 16219; -27953; 2317; 14517; -27953; 2317; 12815; -27953; 2317; 11113; -27953; 2317; 9411; -27953; 2317; 7709; -27953; 2317; 6007; -27953; 2317; 4305; -27953; 2317; 2603; -27953; 2317; 900; -27953; 2317; -802; -27953; 2317; -2504; -27953; 2317; -4206; -27953; 2317; -5908; -27953; 2317; -7610; -27953; 2317; -9312; -27953; 2317; -11014; -27953; 2317; -12716; -27953; 2317; -14418; -27953; 2317; -16120; -27953; 2317; -17822; -27953; 2317; -19524; -27953; 2317; -21226; -27953; 2317; -22929; -27953; 2317; -24631; -27953; 2317; -26333; -27953; 2317; -28035; -27953; 2317; -29737; -27953; 2317; -31439; -27953; 2317; -33141; -27953; 2317; -34843; -27953; 2317; -36545; -27953; 2317; -38247; -27953; 2317; -39949; -27953; 2317; -41651; -27953; 2317; -43353; -27953; 2317; -45056; -27953; 2317; -46758; -27953; 2317; -48640; -27953; 2317; -50342];
  [-15623; 4337; 50084; -15623; 4337; 48381; -15623; 4337; 46679; -15623; 4337; 44977; -15623; 4337; 43275; -15623; 4337; 41573; -15623; 4337; 39871; -15623; 4337; 38169; -15623; 4337; 36467; -15623; 4337; 34765; -15623; 4337; 33063; -15623; 4337; 31361; -15623; 4337; 29659; -15623; 4337; 27957; -15623; 4337; 26254; -15623; 4337; 24552; -15623; 4337; 22850; -15623; 4337; 21148; -15623; 4337; 19446; -15623; 4337; 17744; -15623; 4337; 16042; -15623; 4337; 14340; -15623; 4337; 12638; -15623; 4337; 10936; -15623; 4337; 9234; -15623; 4337; 7532; -15623; 4337; 5830; -15623; 4337; 4127; -15623; 4337; 2425; -15623; 4337; 723; -15623; 4337; -979; -15623; 4337; -2681; -15623; 4337; -4383; -15623; 4337; -6085; -15623; 4337; -7787; -15623; 4337; -9489; -15623; 4337; -11191; -15623; 4337; -12893; -15623; 4337; -14595; -15623; 4337; -16297; -15623; 4337; -17999; -15623; 4337; -19702; -15623; 4337; -21404; -15623; 4337; -23106; -15623; 4337; -24808; -15623; 4337; -26510; -15623; 4337; -28212; -15623; 4337; -29914; -15623; 4337; -31616; -15623; 4337; -33318; -15623; 4337; -35020; -15623; 4337; -36722; -15623; 4337; -38424; -15623; 4337; -40126; -15623; 4337; -41829; -15623; 4337; -43531; -15623; 4337; -45233; -15623; 4337; -46935; -15623; 4337; -48637; -15623; 4337; -50389];
  [-3296; 6244; 49581; -3296; 6244; 47879; -3296; 6244; 46177; -3296; 6244; 44475; -3296; 6244; 42773; -3296; 6244; 41071; -3296; 6244; 39369; -3296; 6244; 37667; -3296; 6244; 35965; -3296; 6244; 34263; -3296; 6244; 32561; -3296; 6244; 30859; -3296; 6244; 29157; -3296; 6244; 27454; -3296; 6244; 25752; -3296; 6244; 24050; -3296; 6244; 22348; -3296; 6244; 20646; -3296; 6244; 18944; -3296; 6244; 17242; -3296; 6244; 15540; -3296; 6244; 13838; -3296; 6244; 12136; -3296; 6244; 10434; -3296; 6244; 8732; -3296; 6244; 7030; -3296; 6244; 5328; -3296; 6244; 3625; -3296; 6244; 1923; -3296; 6244; 221; -3296; 6244; -1481; -3296; 6244; -3183; -3296; 6244; -4885; -3296; 6244; -6587; -3296; 6244; -8289; -3296; 6244; -9991; -3296; 6244; -11693; -3296; 6244; -13395; -3296; 6244; -15097; -3296; 6244; -16799; -3296; 6244; -18502; -3296; 6244; -20204; -3296; 6244; -21906; -3296; 6244; -23608; -3296; 6244; -25310; -3296; 6244; -27012; -3296; 6244; -28714; -3296; 6244; -30416; -3296; 6244; -32118; -3296; 6244; -33820; -3296; 6244; -35522; -3296; 6244; -37224; -3296; 6244; -38926; -3296; 6244; -40629; -3296; 6244; -42331; -3296; 6244; -44033; -3296; 6244; -45735; -3296; 6244; -47437; -3296; 6244; -49139; -3296; 6244; -50841];
  [9049; 8235; 50166; 9049; 8235; 48464; 9049; 8235; 46762; 9049; 8235; 45060; 9049; 8235; 43358; 9049; 8235; 41656; 9049; 8235; 39954; 9049; 8235; 38252; 9049; 8235; 36550; 9049; 8235; 34848; 9049; 8235; 33146; 9049; 8235; 31444; 9049; 8235; 29742; 9049; 8235; 28039; 9049; 8235; 26337; 9049; 8235; 24635; 9049; 8235; 22933; 9049; 8235; 21231; 9049; 8235; 19529; 9049; 8235; 17827; 9049; 8235; 16125; 9049; 8235; 14423; 9049; 8235; 12721; 9049; 8235; 11019; 9049; 8235; 9317; 9049; 8235; 7615; 9049; 8235; 5913; 9049; 8235; 4210; 9049; 8235; 2508; 9049; 8235; 806; 9049; 8235; -896; 9049; 8235; -2598; 9049; 8235; -4300; 9049; 8235; -6002; 9049; 8235; -7704; 9049; 8235; -9406; 9049; 8235; -11108; 9049; 8235; -12810; 9049; 8235; -14512; 9049; 8235; -16214; 9049; 8235; -17917; 9049; 8235; -19619; 9049; 8235; -21321; 9049; 8235; -23023; 9049; 8235; -24725; 9049; 8235; -26427; 9049; 8235; -28129; 9049; 8235; -29831; 9049; 8235; -31533; 9049; 8235; -33235; 9049; 8235; -34937; 9049; 8235; -36639; 9049; 8235; -38341; 9049; 8235; -40044; 9049; 8235; -41746; 9049; 8235; -43448; 9049; 8235; -45150; 9049; 8235; -46852; 9049; 8235; -48554; 9049; 8235; -50256];
  [19503; 12559; 50183; 19503; 12559; 48481; 19503; 12559; 46779; 19503; 12559; 45077; 19503; 12559; 43375; 19503; 12559; 41673; 19503; 12559; 39971; 19503; 12559; 38269; 19503; 12559; 36567; 19503; 12559; 34865; 19503; 12559; 33163; 19503; 12559; 31461; 19503; 12559; 29759; 19503; 12559; 28056; 19503; 12559; 26354; 19503; 12559; 24652; 19503; 12559; 22950; 19503; 12559; 21248; 19503; 12559; 19546; 19503; 12559; 17844; 19503; 12559; 16142; 19503; 12559; 14440; 19503; 12559; 12738; 19503; 12559; 11036; 19503; 12559; 9334; 19503; 12559; 7632; 19503; 12559; 5930; 19503; 12559; 4227; 19503; 12559; 2525; 19503; 12559; 823; 19503; 12559; -879; 19503; 12559; -2581; 19503; 12559; -4283; 19503; 12559; -5985; 19503; 12559; -7687; 19503; 12559; -9389; 19503; 12559; -11091; 19503; 12559; -12793; 19503; 12559; -14495; 19503; 12559; -16197; 19503; 12559; -17900; 19503; 12559; -19602; 19503; 12559; -21304; 19503; 12559; -23006; 19503; 12559; -24708; 19503; 12559; -26410; 19503; 12559; -28112; 19503; 12559; -29814; 19503; 12559; -31516; 19503; 12559; -33218; 19503; 12559; -34920; 19503; 12559; -36622; 19503; 12559; -38324; 19503; 12559; -40027; 19503; 12559; -41729; 19503; 12559; -43431; 19503; 12559; -45133; 19503; 12559; -46835; 19503; 12559; -48537; 19503; 12559; -50239];
  [33003; 12720; 50087; 33003; 12720; 48385; 33003; 12720; 46683; 33003; 12720; 44980; 33003; 12720; 43278; 33003; 12720; 41576; 33003; 12720; 39874; 33003; 12720; 38172; 33003; 12720; 36470; 33003; 12720; 34768; 33003; 12720; 33066; 33003; 12720; 31364; 33003; 12720; 29662; 33003; 12720; 27960; 33003; 12720; 26258; 33003; 12720; 24556; 33003; 12720; 22853; 33003; 12720; 21151; 33003; 12720; 19449; 33003; 12720; 17747; 33003; 12720; 16045; 33003; 12720; 14343; 33003; 12720; 12641; 33003; 12720; 10939; 33003; 12720; 9237; 33003; 12720; 7535; 33003; 12720; 5833; 33003; 12720; 4131; 33003; 12720; 2429; 33003; 12720; 726; 33003; 12720; -976; 33003; 12720; -2678; 33003; 12720; -4380; 33003; 12720; -6082; 33003; 12720; -7784; 33003; 12720; -9486; 33003; 12720; -11188; 33003; 12720; -12890; 33003; 12720; -14592; 33003; 12720; -16294; 33003; 12720; -17996; 33003; 12720; -19698; 33003; 12720; -21401; 33003; 12720; -23103; 33003; 12720; -24805; 33003; 12720; -26507; 33003; 12720; -28209; 33003; 12720; -29911; 33003; 12720; -31613; 33003; 12720; -33315; 33003; 12720; -35017; 33003; 12720; -36719; 33003; 12720; -38421; 33003; 12720; -40123; 33003; 12720; -41825; 33003; 12720; -43528; 33003; 12720; -45230; 33003; 12720; -46932; 33003; 12720; -48634; 33003; 12720; -50486];
  [47205; 12790; 50427; 47205; 12790; 48725; 47205; 12790; 47023; 47205; 12790; 45321; 47205; 12790; 43619; 47205; 12790; 41917; 47205; 12790; 40215; 47205; 12790; 38513; 47205; 12790; 36811; 47205; 12790; 35109; 47205; 12790; 33407; 47205; 12790; 31705; 47205; 12790; 30003; 47205; 12790; 28300; 47205; 12790; 26598; 47205; 12790; 24896; 47205; 12790; 23194; 47205; 12790; 21492; 47205; 12790; 19790; 47205; 12790; 18088; 47205; 12790; 16386; 47205; 12790; 14684; 47205; 12790; 12982; 47205; 12790; 11280; 47205; 12790; 9578; 47205; 12790; 7876; 47205; 12790; 6174; 47205; 12790; 4471; 47205; 12790; 2769; 47205; 12790; 1067; 47205; 12790; -635; 47205; 12790; -2337; 47205; 12790; -4039; 47205; 12790; -5741; 47205; 12790; -7443; 47205; 12790; -9145; 47205; 12790; -10847; 47205; 12790; -12549; 47205; 12790; -14251; 47205; 12790; -15953; 47205; 12790; -17656; 47205; 12790; -19358; 47205; 12790; -21060; 47205; 12790; -22762; 47205; 12790; -24464; 47205; 12790; -26166; 47205; 12790; -27868; 47205; 12790; -29570; 47205; 12790; -31272; 47205; 12790; -32974; 47205; 12790; -34676; 47205; 12790; -36378; 47205; 12790; -38080; 47205; 12790; -39783; 47205; 12790; -41485; 47205; 12790; -43187; 47205; 12790; -44889; 47205; 12790; -46591; 47205; 12790; -48293; 47205; 12790; -49995];
  [57637; 17092; 49404; 57637; 17092; 47702; 57637; 17092; 46000; 57637; 17092; 44298; 57637; 17092; 42596; 57637; 17092; 40894; 57637; 17092; 39192; 57637; 17092; 37490; 57637; 17092; 35788; 57637; 17092; 34086; 57637; 17092; 32384; 57637; 17092; 30682; 57637; 17092; 28980; 57637; 17092; 27277; 57637; 17092; 25575; 57637; 17092; 23873; 57637; 17092; 22171; 57637; 17092; 20469; 57637; 17092; 18767; 57637; 17092; 17065; 57637; 17092; 15363; 57637; 17092; 13661; 57637; 17092; 11959; 57637; 17092; 10257; 57637; 17092; 8555; 57637; 17092; 6853; 57637; 17092; 5151; 57637; 17092; 3448; 57637; 17092; 1746; 57637; 17092; 44; 57637; 17092; -1658; 57637; 17092; -3360; 57637; 17092; -5062; 57637; 17092; -6764; 57637; 17092; -8466; 57637; 17092; -10168; 57637; 17092; -11870; 57637; 17092; -13572; 57637; 17092; -15274; 57637; 17092; -16976; 57637; 17092; -18679; 57637; 17092; -20381; 57637; 17092; -22083; 57637; 17092; -23785; 57637; 17092; -25487; 57637; 17092; -27189; 57637; 17092; -28891; 57637; 17092; -30593; 57637; 17092; -32295; 57637; 17092; -33997; 57637; 17092; -35699; 57637; 17092; -37401; 57637; 17092; -39103; 57637; 17092; -40806; 57637; 17092; -42508; 57637; 17092; -44210; 57637; 17092; -45912; 57637; 17092; -47614; 57637; 17092; -49316; 57637; 17092; -51018];
  [-48160; 10139; 50205; -48160; 10139; 48503; -48160; 10139; 46801; -48160; 10139; 45099; -48160; 10139; 43397; -48160; 10139; 41695; -48160; 10139; 39993; -48160; 10139; 38291; -48160; 10139; 36589; -48160; 10139; 34887; -48160; 10139; 33185; -48160; 10139; 31483; -48160; 10139; 29781; -48160; 10139; 28078; -48160; 10139; 26376; -48160; 10139; 24674; -48160; 10139; 22972; -48160; 10139; 21270; -48160; 10139; 19568; -48160; 10139; 17866; -48160; 10139; 16164; -48160; 10139; 14462; -48160; 10139; 12760; -48160; 10139; 11058; -48160; 10139; 9356; -48160; 10139; 7654; -48160; 10139; 5951; -48160; 10139; 4249; -48160; 10139; 2547; -48160; 10139; 845; -48160; 10139; -857; -48160; 10139; -2559; -48160; 10139; -4261; -48160; 10139; -5963; -48160; 10139; -7665; -48160; 10139; -9367; -48160; 10139; -11069; -48160; 10139; -12771; -48160; 10139; -14473; -48160; 10139; -16176; -48160; 10139; -17878; -48160; 10139; -19580; -48160; 10139; -21282; -48160; 10139; -22984; -48160; 10139; -24686; -48160; 10139; -26388; -48160; 10139; -28090; -48160; 10139; -29792; -48160; 10139; -31494; -48160; 10139; -33196; -48160; 10139; -34898; -48160; 10139; -36600; -48160; 10139; -38302; -48160; 10139; -40005; -48160; 10139; -41707; -48160; 10139; -43409; -48160; 10139; -45111; -48160; 10139; -46813; -48160; 10139; -48492; -48160; 10139; -50194];
  [-35844; 12056; 49806; -35844; 12056; 48104; -35844; 12056; 46402; -35844; 12056; 44700; -35844; 12056; 42998; -35844; 12056; 41296; -35844; 12056; 39594; -35844; 12056; 37892; -35844; 12056; 36190; -35844; 12056; 34488; -35844; 12056; 32786; -35844; 12056; 31084; -35844; 12056; 29382; -35844; 12056; 27679; -35844; 12056; 25977; -35844; 12056; 24275; -35844; 12056; 22573; -35844; 12056; 20871; -35844; 12056; 19169; -35844; 12056; 17467; -35844; 12056; 15765; -35844; 12056; 14063; -35844; 12056; 12361; -35844; 12056; 10659; -35844; 12056; 8957; -35844; 12056; 7255; -35844; 12056; 5553; -35844; 12056; 3850; -35844; 12056; 2148; -35844; 12056; 446; -35844; 12056; -1256; -35844; 12056; -2958; -35844; 12056; -4660; -35844; 12056; -6362; -35844; 12056; -8064; -35844; 12056; -9766; -35844; 12056; -11468; -35844; 12056; -13170; -35844; 12056; -14872; -35844; 12056; -16574; -35844; 12056; -18277; -35844; 12056; -19979; -35844; 12056; -21681; -35844; 12056; -23383; -35844; 12056; -25085; -35844; 12056; -26787; -35844; 12056; -28489; -35844; 12056; -30191; -35844; 12056; -31893; -35844; 12056; -33595; -35844; 12056; -35297; -35844; 12056; -36999; -35844; 12056; -38701; -35844; 12056; -40404; -35844; 12056; -42106; -35844; 12056; -43808; -35844; 12056; -45510; -35844; 12056; -47212; -35844; 12056; -48914; -35844; 12056; -50616];
  [-23495; 14044; 50006; -23495; 14044; 48304; -23495; 14044; 46602; -23495; 14044; 44900; -23495; 14044; 43198; -23495; 14044; 41496; -23495; 14044; 39794; -23495; 14044; 38092; -23495; 14044; 36390; -23495; 14044; 34688; -23495; 14044; 32986; -23495; 14044; 31284; -23495; 14044; 29582; -23495; 14044; 27879; -23495; 14044; 26177; -23495; 14044; 24475; -23495; 14044; 22773; -23495; 14044; 21071; -23495; 14044; 19369; -23495; 14044; 17667; -23495; 14044; 15965; -23495; 14044; 14263; -23495; 14044; 12561; -23495; 14044; 10859; -23495; 14044; 9157; -23495; 14044; 7455; -23495; 14044; 5753; -23495; 14044; 4050; -23495; 14044; 2348; -23495; 14044; 646; -23495; 14044; -1056; -23495; 14044; -2758; -23495; 14044; -4460; -23495; 14044; -6162; -23495; 14044; -7864; -23495; 14044; -9566; -23495; 14044; -11268; -23495; 14044; -12970; -23495; 14044; -14672; -23495; 14044; -16374; -23495; 14044; -18077; -23495; 14044; -19779; -23495; 14044; -21481; -23495; 14044; -23183; -23495; 14044; -24885; -23495; 14044; -26587; -23495; 14044; -28289; -23495; 14044; -29991; -23495; 14044; -31693; -23495; 14044; -33395; -23495; 14044; -35097; -23495; 14044; -36799; -23495; 14044; -38501; -23495; 14044; -40204; -23495; 14044; -41906; -23495; 14044; -43608; -23495; 14044; -45310; -23495; 14044; -47012; -23495; 14044; -48714; -23495; 14044; -50416];
  [-11151; 15998; 50053; -11151; 15998; 48351; -11151; 15998; 46649; -11151; 15998; 44947; -11151; 15998; 43245; -11151; 15998; 41543; -11151; 15998; 39841; -11151; 15998; 38139; -11151; 15998; 36437; -11151; 15998; 34735; -11151; 15998; 33033; -11151; 15998; 31331; -11151; 15998; 29629; -11151; 15998; 27926; -11151; 15998; 26224; -11151; 15998; 24522; -11151; 15998; 22820; -11151; 15998; 21118; -11151; 15998; 19416; -11151; 15998; 17714; -11151; 15998; 16012; -11151; 15998; 14310; -11151; 15998; 12608; -11151; 15998; 10906; -11151; 15998; 9204; -11151; 15998; 7502; -11151; 15998; 5800; -11151; 15998; 4097; -11151; 15998; 2395; -11151; 15998; 693; -11151; 15998; -1009; -11151; 15998; -2711; -11151; 15998; -4413; -11151; 15998; -6115; -11151; 15998; -7817; -11151; 15998; -9519; -11151; 15998; -11221; -11151; 15998; -12923; -11151; 15998; -14625; -11151; 15998; -16327; -11151; 15998; -18030; -11151; 15998; -19732; -11151; 15998; -21434; -11151; 15998; -23136; -11151; 15998; -24838; -11151; 15998; -26540; -11151; 15998; -28242; -11151; 15998; -29944; -11151; 15998; -31646; -11151; 15998; -33348; -11151; 15998; -35050; -11151; 15998; -36752; -11151; 15998; -38454; -11151; 15998; -40157; -11151; 15998; -41859; -11151; 15998; -43561; -11151; 15998; -45263; -11151; 15998; -46965; -11151; 15998; -48667; -11151; 15998; -50369];
  [1187; 17919; 50234; 1187; 17919; 48532; 1187; 17919; 46830; 1187; 17919; 45128; 1187; 17919; 43426; 1187; 17919; 41724; 1187; 17919; 40022; 1187; 17919; 38320; 1187; 17919; 36618; 1187; 17919; 34916; 1187; 17919; 33214; 1187; 17919; 31512; 1187; 17919; 29810; 1187; 17919; 28107; 1187; 17919; 26405; 1187; 17919; 24703; 1187; 17919; 23001; 1187; 17919; 21299; 1187; 17919; 19597; 1187; 17919; 17895; 1187; 17919; 16193; 1187; 17919; 14491; 1187; 17919; 12789; 1187; 17919; 11087; 1187; 17919; 9385; 1187; 17919; 7683; 1187; 17919; 5980; 1187; 17919; 4278; 1187; 17919; 2576; 1187; 17919; 874; 1187; 17919; -828; 1187; 17919; -2530; 1187; 17919; -4232; 1187; 17919; -5934; 1187; 17919; -7636; 1187; 17919; -9338; 1187; 17919; -11040; 1187; 17919; -12742; 1187; 17919; -14444; 1187; 17919; -16147; 1187; 17919; -17849; 1187; 17919; -19551; 1187; 17919; -21253; 1187; 17919; -22955; 1187; 17919; -24657; 1187; 17919; -26359; 1187; 17919; -28061; 1187; 17919; -29763; 1187; 17919; -31465; 1187; 17919; -33167; 1187; 17919; -34869; 1187; 17919; -36571; 1187; 17919; -38274; 1187; 17919; -39976; 1187; 17919; -41678; 1187; 17919; -43380; 1187; 17919; -45032; 1187; 17919; -46734; 1187; 17919; -48436; 1187; 17919; -50158];
  [13203; 20298; 50274; 13203; 20298; 48572; 13203; 20298; 46869; 13203; 20298; 45167; 13203; 20298; 43465; 13203; 20298; 41763; 13203; 20298; 40061; 13203; 20298; 38359; 13203; 20298; 36657; 13203; 20298; 34955; 13203; 20298; 33253; 13203; 20298; 31551; 13203; 20298; 29849; 13203; 20298; 28147; 13203; 20298; 26445; 13203; 20298; 24742; 13203; 20298; 23040; 13203; 20298; 21338; 13203; 20298; 19636; 13203; 20298; 17934; 13203; 20298; 16232; 13203; 20298; 14530; 13203; 20298; 12828; 13203; 20298; 11126; 13203; 20298; 9424; 13203; 20298; 7722; 13203; 20298; 6020; 13203; 20298; 4318; 13203; 20298; 2615; 13203; 20298; 913; 13203; 20298; -789; 13203; 20298; -2491; 13203; 20298; -4193; 13203; 20298; -5895; 13203; 20298; -7597; 13203; 20298; -9299; 13203; 20298; -11001; 13203; 20298; -12703; 13203; 20298; -14405; 13203; 20298; -16107; 13203; 20298; -17809; 13203; 20298; -19512; 13203; 20298; -21214; 13203; 20298; -22916; 13203; 20298; -24618; 13203; 20298; -26320; 13203; 20298; -28022; 13203; 20298; -29724; 13203; 20298; -31426; 13203; 20298; -33128; 13203; 20298; -34830; 13203; 20298; -36532; 13203; 20298; -38234; 13203; 20298; -39936; 13203; 20298; -41639; 13203; 20298; -43341; 13203; 20298; -45043; 13203; 20298; -46745; 13203; 20298; -48447; 13203; 20298; -50239];
  [25731; 21166; 50443; 25731; 21166; 48740; 25731; 21166; 47038; 25731; 21166; 45336; 25731; 21166; 43634; 25731; 21166; 41932; 25731; 21166; 40230; 25731; 21166; 38528; 25731; 21166; 36826; 25731; 21166; 35124; 25731; 21166; 33422; 25731; 21166; 31720; 25731; 21166; 30018; 25731; 21166; 28316; 25731; 21166; 26613; 25731; 21166; 24911; 25731; 21166; 23209; 25731; 21166; 21507; 25731; 21166; 19805; 25731; 21166; 18103; 25731; 21166; 16401; 25731; 21166; 14699; 25731; 21166; 12997; 25731; 21166; 11295; 25731; 21166; 9593; 25731; 21166; 7891; 25731; 21166; 6189; 25731; 21166; 4486; 25731; 21166; 2784; 25731; 21166; 1082; 25731; 21166; -620; 25731; 21166; -2322; 25731; 21166; -4024; 25731; 21166; -5726; 25731; 21166; -7428; 25731; 21166; -9130; 25731; 21166; -10832; 25731; 21166; -12534; 25731; 21166; -14236; 25731; 21166; -15938; 25731; 21166; -17641; 25731; 21166; -19343; 25731; 21166; -21045; 25731; 21166; -22747; 25731; 21166; -24449; 25731; 21166; -26151; 25731; 21166; -27853; 25731; 21166; -29555; 25731; 21166; -31257; 25731; 21166; -32959; 25731; 21166; -34661; 25731; 21166; -36363; 25731; 21166; -38065; 25731; 21166; -39767; 25731; 21166; -41470; 25731; 21166; -43172; 25731; 21166; -44874; 25731; 21166; -46576; 25731; 21166; -48278; 25731; 21166; -50020];
  [38235; 23890; 49854; 38235; 23890; 48152; 38235; 23890; 46450; 38235; 23890; 44748; 38235; 23890; 43046; 38235; 23890; 41344; 38235; 23890; 39642; 38235; 23890; 37940; 38235; 23890; 36238; 38235; 23890; 34536; 38235; 23890; 32834; 38235; 23890; 31132; 38235; 23890; 29430; 38235; 23890; 27727; 38235; 23890; 26025; 38235; 23890; 24323; 38235; 23890; 22621; 38235; 23890; 20919; 38235; 23890; 19217; 38235; 23890; 17515; 38235; 23890; 15813; 38235; 23890; 14111; 38235; 23890; 12409; 38235; 23890; 10707; 38235; 23890; 9005; 38235; 23890; 7303; 38235; 23890; 5601; 38235; 23890; 3898; 38235; 23890; 2196; 38235; 23890; 494; 38235; 23890; -1208; 38235; 23890; -2910; 38235; 23890; -4612; 38235; 23890; -6314; 38235; 23890; -8016; 38235; 23890; -9718; 38235; 23890; -11420; 38235; 23890; -13122; 38235; 23890; -14824; 38235; 23890; -16526; 38235; 23890; -18229; 38235; 23890; -19931; 38235; 23890; -21633; 38235; 23890; -23335; 38235; 23890; -25037; 38235; 23890; -26739; 38235; 23890; -28441; 38235; 23890; -30143; 38235; 23890; -31845; 38235; 23890; -33547; 38235; 23890; -35249; 38235; 23890; -36951; 38235; 23890; -38653; 38235; 23890; -40356; 38235; 23890; -42058; 38235; 23890; -43760; 38235; 23890; -45462; 38235; 23890; -47164; 38235; 23890; -48866; 38235; 23890; -50568];
  [50527; 25788; 50623; 50527; 25788; 48921; 50527; 25788; 47219; 50527; 25788; 45517; 50527; 25788; 43815; 50527; 25788; 42113; 50527; 25788; 40411; 50527; 25788; 38709; 50527; 25788; 37007; 50527; 25788; 35305; 50527; 25788; 33603; 50527; 25788; 31901; 50527; 25788; 30199; 50527; 25788; 28496; 50527; 25788; 26794; 50527; 25788; 25092; 50527; 25788; 23390; 50527; 25788; 21688; 50527; 25788; 19986; 50527; 25788; 18284; 50527; 25788; 16582; 50527; 25788; 14880; 50527; 25788; 13178; 50527; 25788; 11476; 50527; 25788; 9774; 50527; 25788; 8072; 50527; 25788; 6370; 50527; 25788; 4667; 50527; 25788; 2965; 50527; 25788; 1263; 50527; 25788; -439; 50527; 25788; -2141; 50527; 25788; -3843; 50527; 25788; -5545; 50527; 25788; -7247; 50527; 25788; -8949; 50527; 25788; -10651; 50527; 25788; -12353; 50527; 25788; -14055; 50527; 25788; -15757; 50527; 25788; -17460; 50527; 25788; -19162; 50527; 25788; -20864; 50527; 25788; -22566; 50527; 25788; -24268; 50527; 25788; -25970; 50527; 25788; -27672; 50527; 25788; -29374; 50527; 25788; -31076; 50527; 25788; -32778; 50527; 25788; -34480; 50527; 25788; -36182; 50527; 25788; -37884; 50527; 25788; -39587; 50527; 25788; -41289; 50527; 25788; -42991; 50527; 25788; -44693; 50527; 25788; -46395; 50527; 25788; -48097; 50527; 25788; -49799];
  [0; 0; 0; 0; 0; 0; 0; 0; 0; 0; 0; 0; 0; 0; 0; 0; 0; 0; 0; 0; 0; 0; 0; 0; 0; 0; 0; 0; 0; 0; 0; 0; 0; 0; 0; 0; 0; 0; 0; 0; 0; 0; 0; 0; 0; 0; 0; 0; 0; 0; 0; 0; 0; 0; 0; 0; 0; 0; 0; 0; 0; 0; 0; 0; 0; 0; 0; 0; 0; 0; 0; 0; 0; 0; 0; 0; 0; 0; 0; 0; 0; 0; 0; 0; 0; 0; 0; 0; 0; 0; 0; 0; 0; 0; 0; 0; 0; 0; 0; 0; 0; 0; 0; 0; 0; 0; 0; 0; 0; 0; 0; 0; 0; 0; 0; 0; 0; 0; 0; 0; 0; 0; 0; 0; 0; 0; 0; 0; 0; 0; 0; 0; 0; 0; 0; 0; 0; 0; 0; 0; 0; 0; 0; 0; 0; 0; 0; 0; 0; 0; 0; 0; 0; 0; 0; 0; 0; 0; 0; 0; 0; 0; 0; 0; 0; 0; 0; 0; 0; 0; 0; 0; 0; 0; 0; 0; 0; 0; 0; 0];
  [-43704; 21780; 50147; -43704; 21780; 48444; -43704; 21780; 46777; -43704; 21780; 45040; -43704; 21780; 43338; -43704; 21780; 41636; -43704; 21780; 39934; -43704; 21780; 38232; -43704; 21780; 36530; -43704; 21780; 34828; -43704; 21780; 33126; -43704; 21780; 31424; -43704; 21780; 29722; -43704; 21780; 28020; -43704; 21780; 26318; -43704; 21780; 24615; -43704; 21780; 22913; -43704; 21780; 21211; -43704; 21780; 19509; -43704; 21780; 17807; -43704; 21780; 16105; -43704; 21780; 14403; -43704; 21780; 12701; -43704; 21780; 10999; -43704; 21780; 9297; -43704; 21780; 7595; -43704; 21780; 5893; -43704; 21780; 4191; -43704; 21780; 2488; -43704; 21780; 786; -43704; 21780; -916; -43704; 21780; -2618; -43704; 21780; -4320; -43704; 21780; -6022; -43704; 21780; -7724; -43704; 21780; -9426; -43704; 21780; -11128; -43704; 21780; -12830; -43704; 21780; -14532; -43704; 21780; -16234; -43704; 21780; -17936; -43704; 21780; -19639; -43704; 21780; -21341; -43704; 21780; -23043; -43704; 21780; -24745; -43704; 21780; -26447; -43704; 21780; -28149; -43704; 21780; -29851; -43704; 21780; -31553; -43704; 21780; -33255; -43704; 21780; -34957; -43704; 21780; -36659; -43704; 21780; -38361; -43704; 21780; -40063; -43704; 21780; -41766; -43704; 21780; -43468; -43704; 21780; -45170; -43704; 21780; -46872; -43704; 21780; -48574; -43704; 21780; -50346];
  [-31360; 23744; 50119; -31360; 23744; 48417; -31360; 23744; 46715; -31360; 23744; 45013; -31360; 23744; 43311; -31360; 23744; 41609; -31360; 23744; 39907; -31360; 23744; 38205; -31360; 23744; 36503; -31360; 23744; 34801; -31360; 23744; 33099; -31360; 23744; 31397; -31360; 23744; 29695; -31360; 23744; 27992; -31360; 23744; 26290; -31360; 23744; 24588; -31360; 23744; 22886; -31360; 23744; 21184; -31360; 23744; 19482; -31360; 23744; 17780; -31360; 23744; 16078; -31360; 23744; 14376; -31360; 23744; 12674; -31360; 23744; 10972; -31360; 23744; 9270; -31360; 23744; 7568; -31360; 23744; 5866; -31360; 23744; 4163; -31360; 23744; 2461; -31360; 23744; 759; -31360; 23744; -943; -31360; 23744; -2645; -31360; 23744; -4347; -31360; 23744; -6049; -31360; 23744; -7751; -31360; 23744; -9453; -31360; 23744; -11155; -31360; 23744; -12857; -31360; 23744; -14559; -31360; 23744; -16261; -31360; 23744; -17964; -31360; 23744; -19666; -31360; 23744; -21368; -31360; 23744; -23070; -31360; 23744; -24772; -31360; 23744; -26474; -31360; 23744; -28176; -31360; 23744; -29878; -31360; 23744; -31580; -31360; 23744; -33282; -31360; 23744; -34984; -31360; 23744; -36686; -31360; 23744; -38388; -31360; 23744; -40091; -31360; 23744; -41793; -31360; 23744; -43495; -31360; 23744; -45197; -31360; 23744; -46899; -31360; 23744; -48601; -31360; 23744; -50303];
  [-18998; 25742; 50135; -18998; 25742; 48433; -18998; 25742; 46731; -18998; 25742; 45029; -18998; 25742; 43327; -18998; 25742; 41645; -18998; 25742; 39923; -18998; 25742; 38246; -18998; 25742; 36519; -18998; 25742; 34817; -18998; 25742; 33115; -18998; 25742; 31413; -18998; 25742; 29711; -18998; 25742; 28008; -18998; 25742; 26306; -18998; 25742; 24624; -18998; 25742; 22902; -18998; 25742; 21220; -18998; 25742; 19498; -18998; 25742; 17821; -18998; 25742; 16094; -18998; 25742; 14392; -18998; 25742; 12690; -18998; 25742; 10988; -18998; 25742; 9286; -18998; 25742; 7584; -18998; 25742; 5882; -18998; 25742; 4179; -18998; 25742; 2477; -18998; 25742; 775; -18998; 25742; -927; -18998; 25742; -2629; -18998; 25742; -4331; -18998; 25742; -6033; -18998; 25742; -7735; -18998; 25742; -9437; -18998; 25742; -11139; -18998; 25742; -12841; -18998; 25742; -14543; -18998; 25742; -16220; -18998; 25742; -17948; -18998; 25742; -19650; -18998; 25742; -21352; -18998; 25742; -23054; -18998; 25742; -24756; -18998; 25742; -26458; -18998; 25742; -28160; -18998; 25742; -29862; -18998; 25742; -31564; -18998; 25742; -33266; -18998; 25742; -34968; -18998; 25742; -36670; -18998; 25742; -38372; -18998; 25742; -40075; -18998; 25742; -41777; -18998; 25742; -43479; -18998; 25742; -45181; -18998; 25742; -46883; -18998; 25742; -48585; -18998; 25742; -50287];
  [-6670; 27692; 49782; -6670; 27692; 48080; -6670; 27692; 46378; -6670; 27692; 44676; -6670; 27692; 42974; -6670; 27692; 41272; -6670; 27692; 39570; -6670; 27692; 37868; -6670; 27692; 36166; -6670; 27692; 34464; -6670; 27692; 32762; -6670; 27692; 31060; -6670; 27692; 29358; -6670; 27692; 27655; -6670; 27692; 25953; -6670; 27692; 24251; -6670; 27692; 22549; -6670; 27692; 20847; -6670; 27692; 19145; -6670; 27692; 17443; -6670; 27692; 15741; -6670; 27692; 14039; -6670; 27692; 12337; -6670; 27692; 10635; -6670; 27692; 8933; -6670; 27692; 7231; -6670; 27692; 5529; -6670; 27692; 3826; -6670; 27692; 2124; -6670; 27692; 422; -6670; 27692; -1280; -6670; 27692; -2982; -6670; 27692; -4684; -6670; 27692; -6386; -6670; 27692; -8088; -6670; 27692; -9790; -6670; 27692; -11492; -6670; 27692; -13194; -6670; 27692; -14896; -6670; 27692; -16598; -6670; 27692; -18301; -6670; 27692; -20003; -6670; 27692; -21705; -6670; 27692; -23407; -6670; 27692; -25109; -6670; 27692; -26811; -6670; 27692; -28513; -6670; 27692; -30215; -6670; 27692; -31917; -6670; 27692; -33619; -6670; 27692; -35321; -6670; 27692; -37023; -6670; 27692; -38725; -6670; 27692; -40428; -6670; 27692; -42130; -6670; 27692; -43832; -6670; 27692; -45534; -6670; 27692; -47236; -6670; 27692; -48938; -6670; 27692; -50640];
  [5426; 29297; 52456; 5426; 29297; 50753; 5426; 29297; 49051; 5426; 29297; 47349; 5426; 29297; 45647; 5426; 29297; 43945; 5426; 29297; 42243; 5426; 29297; 40541; 5426; 29297; 38839; 5426; 29297; 37137; 5426; 29297; 35435; 5426; 29297; 33733; 5426; 29297; 32031; 5426; 29297; 30329; 5426; 29297; 28626; 5426; 29297; 26924; 5426; 29297; 25222; 5426; 29297; 23520; 5426; 29297; 21818; 5426; 29297; 20116; 5426; 29297; 18414; 5426; 29297; 16712; 5426; 29297; 15010; 5426; 29297; 13308; 5426; 29297; 11606; 5426; 29297; 9904; 5426; 29297; 8202; 5426; 29297; 6499; 5426; 29297; 4797; 5426; 29297; 3095; 5426; 29297; 1393; 5426; 29297; -309; 5426; 29297; -2011; 5426; 29297; -3713; 5426; 29297; -5415; 5426; 29297; -7117; 5426; 29297; -8819; 5426; 29297; -10521; 5426; 29297; -12223; 5426; 29297; -13925; 5426; 29297; -15628; 5426; 29297; -17330; 5426; 29297; -19032; 5426; 29297; -20734; 5426; 29297; -22436; 5426; 29297; -24138; 5426; 29297; -25840; 5426; 29297; -27542; 5426; 29297; -29244; 5426; 29297; -30946; 5426; 29297; -32648; 5426; 29297; -34350; 5426; 29297; -36052; 5426; 29297; -37754; 5426; 29297; -39457; 5426; 29297; -41159; 5426; 29297; -42861; 5426; 29297; -44563; 5426; 29297; -46265; 5426; 29297; -48007];
  [17447; 31554; 51274; 17447; 31554; 49572; 17447; 31554; 47870; 17447; 31554; 46168; 17447; 31554; 44466; 17447; 31554; 42764; 17447; 31554; 41062; 17447; 31554; 39360; 17447; 31554; 37658; 17447; 31554; 35956; 17447; 31554; 34254; 17447; 31554; 32552; 17447; 31554; 30850; 17447; 31554; 29147; 17447; 31554; 27445; 17447; 31554; 25743; 17447; 31554; 24041; 17447; 31554; 22339; 17447; 31554; 20637; 17447; 31554; 18935; 17447; 31554; 17233; 17447; 31554; 15531; 17447; 31554; 13829; 17447; 31554; 12127; 17447; 31554; 10425; 17447; 31554; 8723; 17447; 31554; 7021; 17447; 31554; 5318; 17447; 31554; 3616; 17447; 31554; 1914; 17447; 31554; 212; 17447; 31554; -1490; 17447; 31554; -3192; 17447; 31554; -4894; 17447; 31554; -6596; 17447; 31554; -8298; 17447; 31554; -10000; 17447; 31554; -11702; 17447; 31554; -13404; 17447; 31554; -15106; 17447; 31554; -16809; 17447; 31554; -18511; 17447; 31554; -20213; 17447; 31554; -21915; 17447; 31554; -23617; 17447; 31554; -25319; 17447; 31554; -27021; 17447; 31554; -28723; 17447; 31554; -30425; 17447; 31554; -32127; 17447; 31554; -33829; 17447; 31554; -35531; 17447; 31554; -37233; 17447; 31554; -38936; 17447; 31554; -40638; 17447; 31554; -42340; 17447; 31554; -44042; 17447; 31554; -45744; 17447; 31554; -47446; 17447; 31554; -49148];
  [30341; 33564; 51295; 30341; 33564; 49593; 30341; 33564; 47891; 30341; 33564; 46189; 30341; 33564; 44487; 30341; 33564; 42785; 30341; 33564; 41083; 30341; 33564; 39381; 30341; 33564; 37679; 30341; 33564; 35977; 30341; 33564; 34275; 30341; 33564; 32573; 30341; 33564; 30871; 30341; 33564; 29168; 30341; 33564; 27466; 30341; 33564; 25764; 30341; 33564; 24062; 30341; 33564; 22360; 30341; 33564; 20658; 30341; 33564; 18956; 30341; 33564; 17254; 30341; 33564; 15552; 30341; 33564; 13850; 30341; 33564; 12148; 30341; 33564; 10446; 30341; 33564; 8744; 30341; 33564; 7042; 30341; 33564; 5339; 30341; 33564; 3637; 30341; 33564; 1935; 30341; 33564; 233; 30341; 33564; -1469; 30341; 33564; -3171; 30341; 33564; -4873; 30341; 33564; -6575; 30341; 33564; -8277; 30341; 33564; -9979; 30341; 33564; -11681; 30341; 33564; -13383; 30341; 33564; -15085; 30341; 33564; -16788; 30341; 33564; -18490; 30341; 33564; -20192; 30341; 33564; -21894; 30341; 33564; -23596; 30341; 33564; -25298; 30341; 33564; -27000; 30341; 33564; -28702; 30341; 33564; -30404; 30341; 33564; -32106; 30341; 33564; -33808; 30341; 33564; -35510; 30341; 33564; -37212; 30341; 33564; -38915; 30341; 33564; -40617; 30341; 33564; -42319; 30341; 33564; -44021; 30341; 33564; -45723; 30341; 33564; -47425; 30341; 33564; -49127];
  [42976; 35102; 50614; 42976; 35102; 48912; 42976; 35102; 47210; 42976; 35102; 45508; 42976; 35102; 43806; 42976; 35102; 42104; 42976; 35102; 40402; 42976; 35102; 38700; 42976; 35102; 36998; 42976; 35102; 35296; 42976; 35102; 33594; 42976; 35102; 31892; 42976; 35102; 30190; 42976; 35102; 28487; 42976; 35102; 26785; 42976; 35102; 25083; 42976; 35102; 23381; 42976; 35102; 21679; 42976; 35102; 19977; 42976; 35102; 18275; 42976; 35102; 16573; 42976; 35102; 14871; 42976; 35102; 13169; 42976; 35102; 11467; 42976; 35102; 9765; 42976; 35102; 8063; 42976; 35102; 6361; 42976; 35102; 4658; 42976; 35102; 2956; 42976; 35102; 1254; 42976; 35102; -448; 42976; 35102; -2150; 42976; 35102; -3852; 42976; 35102; -5554; 42976; 35102; -7256; 42976; 35102; -8958; 42976; 35102; -10660; 42976; 35102; -12362; 42976; 35102; -14064; 42976; 35102; -15766; 42976; 35102; -17469; 42976; 35102; -19171; 42976; 35102; -20873; 42976; 35102; -22575; 42976; 35102; -24277; 42976; 35102; -25979; 42976; 35102; -27681; 42976; 35102; -29383; 42976; 35102; -31085; 42976; 35102; -32787; 42976; 35102; -34489; 42976; 35102; -36191; 42976; 35102; -37893; 42976; 35102; -39596; 42976; 35102; -41298; 42976; 35102; -43000; 42976; 35102; -44702; 42976; 35102; -46404; 42976; 35102; -48106; 42976; 35102; -49808];
  [0; 0; 0; 0; 0; 0; 0; 0; 0; 0; 0; 0; 0; 0; 0; 0; 0; 0; 0; 0; 0; 0; 0; 0; 0; 0; 0; 0; 0; 0; 0; 0; 0; 0; 0; 0; 0; 0; 0; 0; 0; 0; 0; 0; 0; 0; 0; 0; 0; 0; 0; 0; 0; 0; 0; 0; 0; 0; 0; 0; 0; 0; 0; 0; 0; 0; 0; 0; 0; 0; 0; 0; 0; 0; 0; 0; 0; 0; 0; 0; 0; 0; 0; 0; 0; 0; 0; 0; 0; 0; 0; 0; 0; 0; 0; 0; 0; 0; 0; 0; 0; 0; 0; 0; 0; 0; 0; 0; 0; 0; 0; 0; 0; 0; 0; 0; 0; 0; 0; 0; 0; 0; 0; 0; 0; 0; 0; 0; 0; 0; 0; 0; 0; 0; 0; 0; 0; 0; 0; 0; 0; 0; 0; 0; 0; 0; 0; 0; 0; 0; 0; 0; 0; 0; 0; 0; 0; 0; 0; 0; 0; 0; 0; 0; 0; 0; 0; 0; 0; 0; 0; 0; 0; 0; 0; 0; 0; 0; 0; 0];
  [0; 0; 0; 0; 0; 0; 0; 0; 0; 0; 0; 0; 0; 0; 0; 0; 0; 0; 0; 0; 0; 0; 0; 0; 0; 0; 0; 0; 0; 0; 0; 0; 0; 0; 0; 0; 0; 0; 0; 0; 0; 0; 0; 0; 0; 0; 0; 0; 0; 0; 0; 0; 0; 0; 0; 0; 0; 0; 0; 0; 0; 0; 0; 0; 0; 0; 0; 0; 0; 0; 0; 0; 0; 0; 0; 0; 0; 0; 0; 0; 0; 0; 0; 0; 0; 0; 0; 0; 0; 0; 0; 0; 0; 0; 0; 0; 0; 0; 0; 0; 0; 0; 0; 0; 0; 0; 0; 0; 0; 0; 0; 0; 0; 0; 0; 0; 0; 0; 0; 0; 0; 0; 0; 0; 0; 0; 0; 0; 0; 0; 0; 0; 0; 0; 0; 0; 0; 0; 0; 0; 0; 0; 0; 0; 0; 0; 0; 0; 0; 0; 0; 0; 0; 0; 0; 0; 0; 0; 0; 0; 0; 0; 0; 0; 0; 0; 0; 0; 0; 0; 0; 0; 0; 0; 0; 0; 0; 0; 0; 0];
  [-39238; 33424; 50279; -39238; 33424; 48577; -39238; 33424; 46875; -39238; 33424; 45173; -39238; 33424; 43471; -39238; 33424; 41769; -39238; 33424; 40067; -39238; 33424; 38365; -39238; 33424; 36663; -39238; 33424; 34961; -39238; 33424; 33259; -39238; 33424; 31557; -39238; 33424; 29855; -39238; 33424; 28152; -39238; 33424; 26450; -39238; 33424; 24748; -39238; 33424; 23046; -39238; 33424; 21344; -39238; 33424; 19642; -39238; 33424; 17940; -39238; 33424; 16238; -39238; 33424; 14536; -39238; 33424; 12834; -39238; 33424; 11132; -39238; 33424; 9430; -39238; 33424; 7728; -39238; 33424; 6026; -39238; 33424; 4323; -39238; 33424; 2621; -39238; 33424; 919; -39238; 33424; -783; -39238; 33424; -2485; -39238; 33424; -4187; -39238; 33424; -5889; -39238; 33424; -7591; -39238; 33424; -9293; -39238; 33424; -10995; -39238; 33424; -12697; -39238; 33424; -14399; -39238; 33424; -16101; -39238; 33424; -17804; -39238; 33424; -19506; -39238; 33424; -21208; -39238; 33424; -22910; -39238; 33424; -24612; -39238; 33424; -26314; -39238; 33424; -28016; -39238; 33424; -29718; -39238; 33424; -31420; -39238; 33424; -33122; -39238; 33424; -34824; -39238; 33424; -36526; -39238; 33424; -38228; -39238; 33424; -39931; -39238; 33424; -41633; -39238; 33424; -43335; -39238; 33424; -45037; -39238; 33424; -46739; -39238; 33424; -48441; -39238; 33424; -50143];
  [-26890; 35424; 50154; -26890; 35424; 48451; -26890; 35424; 46749; -26890; 35424; 45047; -26890; 35424; 43345; -26890; 35424; 41643; -26890; 35424; 39941; -26890; 35424; 38239; -26890; 35424; 36537; -26890; 35424; 34835; -26890; 35424; 33133; -26890; 35424; 31431; -26890; 35424; 29729; -26890; 35424; 28027; -26890; 35424; 26324; -26890; 35424; 24622; -26890; 35424; 22920; -26890; 35424; 21218; -26890; 35424; 19516; -26890; 35424; 17814; -26890; 35424; 16112; -26890; 35424; 14410; -26890; 35424; 12708; -26890; 35424; 11006; -26890; 35424; 9304; -26890; 35424; 7602; -26890; 35424; 5900; -26890; 35424; 4197; -26890; 35424; 2495; -26890; 35424; 793; -26890; 35424; -909; -26890; 35424; -2611; -26890; 35424; -4313; -26890; 35424; -6015; -26890; 35424; -7717; -26890; 35424; -9419; -26890; 35424; -11121; -26890; 35424; -12823; -26890; 35424; -14525; -26890; 35424; -16227; -26890; 35424; -17930; -26890; 35424; -19632; -26890; 35424; -21334; -26890; 35424; -23036; -26890; 35424; -24738; -26890; 35424; -26440; -26890; 35424; -28142; -26890; 35424; -29844; -26890; 35424; -31546; -26890; 35424; -33248; -26890; 35424; -34950; -26890; 35424; -36652; -26890; 35424; -38354; -26890; 35424; -40057; -26890; 35424; -41759; -26890; 35424; -43461; -26890; 35424; -45163; -26890; 35424; -46865; -26890; 35424; -48567; -26890; 35424; -50289];
  [-14545; 37424; 50209; -14545; 37424; 48507; -14545; 37424; 46804; -14545; 37424; 45102; -14545; 37424; 43400; -14545; 37424; 41698; -14545; 37424; 39996; -14545; 37424; 38294; -14545; 37424; 36592; -14545; 37424; 34890; -14545; 37424; 33188; -14545; 37424; 31486; -14545; 37424; 29784; -14545; 37424; 28082; -14545; 37424; 26380; -14545; 37424; 24677; -14545; 37424; 22975; -14545; 37424; 21273; -14545; 37424; 19571; -14545; 37424; 17869; -14545; 37424; 16167; -14545; 37424; 14465; -14545; 37424; 12763; -14545; 37424; 11061; -14545; 37424; 9359; -14545; 37424; 7657; -14545; 37424; 5955; -14545; 37424; 4253; -14545; 37424; 2550; -14545; 37424; 848; -14545; 37424; -854; -14545; 37424; -2556; -14545; 37424; -4258; -14545; 37424; -5960; -14545; 37424; -7662; -14545; 37424; -9364; -14545; 37424; -11066; -14545; 37424; -12768; -14545; 37424; -14470; -14545; 37424; -16172; -14545; 37424; -17874; -14545; 37424; -19577; -14545; 37424; -21279; -14545; 37424; -22981; -14545; 37424; -24683; -14545; 37424; -26385; -14545; 37424; -28087; -14545; 37424; -29789; -14545; 37424; -31491; -14545; 37424; -33193; -14545; 37424; -34895; -14545; 37424; -36597; -14545; 37424; -38299; -14545; 37424; -40001; -14545; 37424; -41703; -14545; 37424; -43406; -14545; 37424; -45108; -14545; 37424; -46810; -14545; 37424; -48512; -14545; 37424; -50314];
  [-2197; 39324; 49981; -2197; 39324; 48279; -2197; 39324; 46577; -2197; 39324; 44875; -2197; 39324; 43173; -2197; 39324; 41471; -2197; 39324; 39769; -2197; 39324; 38067; -2197; 39324; 36365; -2197; 39324; 34663; -2197; 39324; 32961; -2197; 39324; 31259; -2197; 39324; 29557; -2197; 39324; 27854; -2197; 39324; 26152; -2197; 39324; 24450; -2197; 39324; 22748; -2197; 39324; 21046; -2197; 39324; 19344; -2197; 39324; 17642; -2197; 39324; 15940; -2197; 39324; 14238; -2197; 39324; 12536; -2197; 39324; 10834; -2197; 39324; 9132; -2197; 39324; 7430; -2197; 39324; 5728; -2197; 39324; 4025; -2197; 39324; 2323; -2197; 39324; 621; -2197; 39324; -1081; -2197; 39324; -2783; -2197; 39324; -4485; -2197; 39324; -6187; -2197; 39324; -7889; -2197; 39324; -9591; -2197; 39324; -11293; -2197; 39324; -12995; -2197; 39324; -14697; -2197; 39324; -16399; -2197; 39324; -18102; -2197; 39324; -19804; -2197; 39324; -21506; -2197; 39324; -23208; -2197; 39324; -24910; -2197; 39324; -26612; -2197; 39324; -28314; -2197; 39324; -30016; -2197; 39324; -31718; -2197; 39324; -33420; -2197; 39324; -35122; -2197; 39324; -36824; -2197; 39324; -38526; -2197; 39324; -40229; -2197; 39324; -41931; -2197; 39324; -43633; -2197; 39324; -45335; -2197; 39324; -47037; -2197; 39324; -48739; -2197; 39324; -50441];
  [10104; 41279; 50442; 10104; 41279; 48739; 10104; 41279; 47037; 10104; 41279; 45335; 10104; 41279; 43633; 10104; 41279; 41931; 10104; 41279; 40229; 10104; 41279; 38527; 10104; 41279; 36825; 10104; 41279; 35123; 10104; 41279; 33421; 10104; 41279; 31719; 10104; 41279; 30017; 10104; 41279; 28315; 10104; 41279; 26613; 10104; 41279; 24910; 10104; 41279; 23208; 10104; 41279; 21506; 10104; 41279; 19804; 10104; 41279; 18102; 10104; 41279; 16400; 10104; 41279; 14698; 10104; 41279; 12996; 10104; 41279; 11294; 10104; 41279; 9592; 10104; 41279; 7890; 10104; 41279; 6188; 10104; 41279; 4486; 10104; 41279; 2783; 10104; 41279; 1081; 10104; 41279; -621; 10104; 41279; -2323; 10104; 41279; -4025; 10104; 41279; -5727; 10104; 41279; -7429; 10104; 41279; -9131; 10104; 41279; -10833; 10104; 41279; -12535; 10104; 41279; -14237; 10104; 41279; -15939; 10104; 41279; -17641; 10104; 41279; -19344; 10104; 41279; -21046; 10104; 41279; -22748; 10104; 41279; -24450; 10104; 41279; -26152; 10104; 41279; -27854; 10104; 41279; -29556; 10104; 41279; -31258; 10104; 41279; -32960; 10104; 41279; -34662; 10104; 41279; -36364; 10104; 41279; -38066; 10104; 41279; -39768; 10104; 41279; -41471; 10104; 41279; -43173; 10104; 41279; -44875; 10104; 41279; -46577; 10104; 41279; -48279; 10104; 41279; -50051];
  [22458; 43235; 49706; 22458; 43235; 48004; 22458; 43235; 46302; 22458; 43235; 44600; 22458; 43235; 42898; 22458; 43235; 41196; 22458; 43235; 39494; 22458; 43235; 37792; 22458; 43235; 36090; 22458; 43235; 34388; 22458; 43235; 32686; 22458; 43235; 30984; 22458; 43235; 29282; 22458; 43235; 27579; 22458; 43235; 25877; 22458; 43235; 24175; 22458; 43235; 22473; 22458; 43235; 20771; 22458; 43235; 19069; 22458; 43235; 17367; 22458; 43235; 15665; 22458; 43235; 13963; 22458; 43235; 12261; 22458; 43235; 10559; 22458; 43235; 8857; 22458; 43235; 7155; 22458; 43235; 5453; 22458; 43235; 3750; 22458; 43235; 2048; 22458; 43235; 346; 22458; 43235; -1356; 22458; 43235; -3058; 22458; 43235; -4760; 22458; 43235; -6462; 22458; 43235; -8164; 22458; 43235; -9866; 22458; 43235; -11568; 22458; 43235; -13270; 22458; 43235; -14972; 22458; 43235; -16674; 22458; 43235; -18377; 22458; 43235; -20079; 22458; 43235; -21781; 22458; 43235; -23483; 22458; 43235; -25185; 22458; 43235; -26887; 22458; 43235; -28589; 22458; 43235; -30291; 22458; 43235; -31993; 22458; 43235; -33695; 22458; 43235; -35397; 22458; 43235; -37099; 22458; 43235; -38801; 22458; 43235; -40504; 22458; 43235; -42206; 22458; 43235; -43908; 22458; 43235; -45610; 22458; 43235; -47312; 22458; 43235; -49014; 22458; 43235; -50716];
  [33844; 46372; 50572; 33844; 46372; 48870; 33844; 46372; 47168; 33844; 46372; 45466; 33844; 46372; 43764; 33844; 46372; 42062; 33844; 46372; 40360; 33844; 46372; 38658; 33844; 46372; 36956; 33844; 46372; 35254; 33844; 46372; 33552; 33844; 46372; 31850; 33844; 46372; 30148; 33844; 46372; 28445; 33844; 46372; 26743; 33844; 46372; 25041; 33844; 46372; 23339; 33844; 46372; 21637; 33844; 46372; 19935; 33844; 46372; 18233; 33844; 46372; 16531; 33844; 46372; 14829; 33844; 46372; 13127; 33844; 46372; 11425; 33844; 46372; 9723; 33844; 46372; 8021; 33844; 46372; 6319; 33844; 46372; 4616; 33844; 46372; 2914; 33844; 46372; 1212; 33844; 46372; -490; 33844; 46372; -2192; 33844; 46372; -3894; 33844; 46372; -5596; 33844; 46372; -7298; 33844; 46372; -9000; 33844; 46372; -10702; 33844; 46372; -12404; 33844; 46372; -14106; 33844; 46372; -15808; 33844; 46372; -17511; 33844; 46372; -19213; 33844; 46372; -20915; 33844; 46372; -22617; 33844; 46372; -24319; 33844; 46372; -26021; 33844; 46372; -27723; 33844; 46372; -29425; 33844; 46372; -31127; 33844; 46372; -32829; 33844; 46372; -34531; 33844; 46372; -36233; 33844; 46372; -37935; 33844; 46372; -39638; 33844; 46372; -41340; 33844; 46372; -43042; 33844; 46372; -44744; 33844; 46372; -46446; 33844; 46372; -48148; 33844; 46372; -49850];
  [0; 0; 0; 0; 0; 0; 0; 0; 0; 0; 0; 0; 0; 0; 0; 0; 0; 0; 0; 0; 0; 0; 0; 0; 0; 0; 0; 0; 0; 0; 0; 0; 0; 0; 0; 0; 0; 0; 0; 0; 0; 0; 0; 0; 0; 0; 0; 0; 0; 0; 0; 0; 0; 0; 0; 0; 0; 0; 0; 0; 0; 0; 0; 0; 0; 0; 0; 0; 0; 0; 0; 0; 0; 0; 0; 0; 0; 0; 0; 0; 0; 0; 0; 0; 0; 0; 0; 0; 0; 0; 0; 0; 0; 0; 0; 0; 0; 0; 0; 0; 0; 0; 0; 0; 0; 0; 0; 0; 0; 0; 0; 0; 0; 0; 0; 0; 0; 0; 0; 0; 0; 0; 0; 0; 0; 0; 0; 0; 0; 0; 0; 0; 0; 0; 0; 0; 0; 0; 0; 0; 0; 0; 0; 0; 0; 0; 0; 0; 0; 0; 0; 0; 0; 0; 0; 0; 0; 0; 0; 0; 0; 0; 0; 0; 0; 0; 0; 0; 0; 0; 0; 0; 0; 0; 0; 0; 0; 0; 0; 0];
  [0; 0; 0; 0; 0; 0; 0; 0; 0; 0; 0; 0; 0; 0; 0; 0; 0; 0; 0; 0; 0; 0; 0; 0; 0; 0; 0; 0; 0; 0; 0; 0; 0; 0; 0; 0; 0; 0; 0; 0; 0; 0; 0; 0; 0; 0; 0; 0; 0; 0; 0; 0; 0; 0; 0; 0; 0; 0; 0; 0; 0; 0; 0; 0; 0; 0; 0; 0; 0; 0; 0; 0; 0; 0; 0; 0; 0; 0; 0; 0; 0; 0; 0; 0; 0; 0; 0; 0; 0; 0; 0; 0; 0; 0; 0; 0; 0; 0; 0; 0; 0; 0; 0; 0; 0; 0; 0; 0; 0; 0; 0; 0; 0; 0; 0; 0; 0; 0; 0; 0; 0; 0; 0; 0; 0; 0; 0; 0; 0; 0; 0; 0; 0; 0; 0; 0; 0; 0; 0; 0; 0; 0; 0; 0; 0; 0; 0; 0; 0; 0; 0; 0; 0; 0; 0; 0; 0; 0; 0; 0; 0; 0; 0; 0; 0; 0; 0; 0; 0; 0; 0; 0; 0; 0; 0; 0; 0; 0; 0; 0];
  [0; 0; 0; 0; 0; 0; 0; 0; 0; 0; 0; 0; 0; 0; 0; 0; 0; 0; 0; 0; 0; 0; 0; 0; 0; 0; 0; 0; 0; 0; 0; 0; 0; 0; 0; 0; 0; 0; 0; 0; 0; 0; 0; 0; 0; 0; 0; 0; 0; 0; 0; 0; 0; 0; 0; 0; 0; 0; 0; 0; 0; 0; 0; 0; 0; 0; 0; 0; 0; 0; 0; 0; 0; 0; 0; 0; 0; 0; 0; 0; 0; 0; 0; 0; 0; 0; 0; 0; 0; 0; 0; 0; 0; 0; 0; 0; 0; 0; 0; 0; 0; 0; 0; 0; 0; 0; 0; 0; 0; 0; 0; 0; 0; 0; 0; 0; 0; 0; 0; 0; 0; 0; 0; 0; 0; 0; 0; 0; 0; 0; 0; 0; 0; 0; 0; 0; 0; 0; 0; 0; 0; 0; 0; 0; 0; 0; 0; 0; 0; 0; 0; 0; 0; 0; 0; 0; 0; 0; 0; 0; 0; 0; 0; 0; 0; 0; 0; 0; 0; 0; 0; 0; 0; 0; 0; 0; 0; 0; 0; 0];
  [-34788; 45152; 50201; -34788; 45152; 48498; -34788; 45152; 46796; -34788; 45152; 45094; -34788; 45152; 43392; -34788; 45152; 41690; -34788; 45152; 39988; -34788; 45152; 38286; -34788; 45152; 36584; -34788; 45152; 34882; -34788; 45152; 33180; -34788; 45152; 31478; -34788; 45152; 29776; -34788; 45152; 28074; -34788; 45152; 26371; -34788; 45152; 24669; -34788; 45152; 22967; -34788; 45152; 21265; -34788; 45152; 19563; -34788; 45152; 17861; -34788; 45152; 16159; -34788; 45152; 14457; -34788; 45152; 12755; -34788; 45152; 11053; -34788; 45152; 9351; -34788; 45152; 7649; -34788; 45152; 5947; -34788; 45152; 4244; -34788; 45152; 2542; -34788; 45152; 840; -34788; 45152; -862; -34788; 45152; -2564; -34788; 45152; -4266; -34788; 45152; -5968; -34788; 45152; -7670; -34788; 45152; -9372; -34788; 45152; -11074; -34788; 45152; -12776; -34788; 45152; -14478; -34788; 45152; -16180; -34788; 45152; -17883; -34788; 45152; -19585; -34788; 45152; -21287; -34788; 45152; -22989; -34788; 45152; -24691; -34788; 45152; -26393; -34788; 45152; -28095; -34788; 45152; -29797; -34788; 45152; -31499; -34788; 45152; -33201; -34788; 45152; -34903; -34788; 45152; -36605; -34788; 45152; -38307; -34788; 45152; -40009; -34788; 45152; -41712; -34788; 45152; -43414; -34788; 45152; -45116; -34788; 45152; -46818; -34788; 45152; -48520; -34788; 45152; -50262];
  [-22409; 47086; 50242; -22409; 47086; 48540; -22409; 47086; 46838; -22409; 47086; 45136; -22409; 47086; 43434; -22409; 47086; 41732; -22409; 47086; 40030; -22409; 47086; 38328; -22409; 47086; 36626; -22409; 47086; 34924; -22409; 47086; 33222; -22409; 47086; 31520; -22409; 47086; 29818; -22409; 47086; 28115; -22409; 47086; 26413; -22409; 47086; 24711; -22409; 47086; 23009; -22409; 47086; 21307; -22409; 47086; 19605; -22409; 47086; 17903; -22409; 47086; 16201; -22409; 47086; 14499; -22409; 47086; 12797; -22409; 47086; 11095; -22409; 47086; 9393; -22409; 47086; 7691; -22409; 47086; 5989; -22409; 47086; 4286; -22409; 47086; 2584; -22409; 47086; 882; -22409; 47086; -820; -22409; 47086; -2522; -22409; 47086; -4224; -22409; 47086; -5926; -22409; 47086; -7628; -22409; 47086; -9330; -22409; 47086; -11032; -22409; 47086; -12734; -22409; 47086; -14436; -22409; 47086; -16138; -22409; 47086; -17841; -22409; 47086; -19543; -22409; 47086; -21245; -22409; 47086; -22947; -22409; 47086; -24649; -22409; 47086; -26351; -22409; 47086; -28053; -22409; 47086; -29755; -22409; 47086; -31457; -22409; 47086; -33159; -22409; 47086; -34861; -22409; 47086; -36563; -22409; 47086; -38265; -22409; 47086; -39968; -22409; 47086; -41670; -22409; 47086; -43372; -22409; 47086; -45074; -22409; 47086; -46776; -22409; 47086; -48478; -22409; 47086; -50180];
  [-10106; 49022; 50149; -10106; 49022; 48446; -10106; 49022; 46744; -10106; 49022; 45042; -10106; 49022; 43340; -10106; 49022; 41638; -10106; 49022; 39936; -10106; 49022; 38234; -10106; 49022; 36532; -10106; 49022; 34830; -10106; 49022; 33128; -10106; 49022; 31426; -10106; 49022; 29724; -10106; 49022; 28022; -10106; 49022; 26319; -10106; 49022; 24617; -10106; 49022; 22915; -10106; 49022; 21213; -10106; 49022; 19511; -10106; 49022; 17809; -10106; 49022; 16107; -10106; 49022; 14405; -10106; 49022; 12703; -10106; 49022; 11001; -10106; 49022; 9299; -10106; 49022; 7597; -10106; 49022; 5895; -10106; 49022; 4192; -10106; 49022; 2490; -10106; 49022; 788; -10106; 49022; -914; -10106; 49022; -2616; -10106; 49022; -4318; -10106; 49022; -6020; -10106; 49022; -7722; -10106; 49022; -9424; -10106; 49022; -11126; -10106; 49022; -12828; -10106; 49022; -14530; -10106; 49022; -16232; -10106; 49022; -17934; -10106; 49022; -19637; -10106; 49022; -21339; -10106; 49022; -23041; -10106; 49022; -24743; -10106; 49022; -26445; -10106; 49022; -28147; -10106; 49022; -29849; -10106; 49022; -31551; -10106; 49022; -33253; -10106; 49022; -34955; -10106; 49022; -36657; -10106; 49022; -38359; -10106; 49022; -40061; -10106; 49022; -41764; -10106; 49022; -43466; -10106; 49022; -45168; -10106; 49022; -46870; -10106; 49022; -48572; -10106; 49022; -50324];
  [2211; 50950; 50466; 2211; 50950; 48764; 2211; 50950; 47062; 2211; 50950; 45360; 2211; 50950; 43658; 2211; 50950; 41956; 2211; 50950; 40254; 2211; 50950; 38552; 2211; 50950; 36850; 2211; 50950; 35148; 2211; 50950; 33446; 2211; 50950; 31744; 2211; 50950; 30042; 2211; 50950; 28339; 2211; 50950; 26637; 2211; 50950; 24935; 2211; 50950; 23233; 2211; 50950; 21531; 2211; 50950; 19829; 2211; 50950; 18127; 2211; 50950; 16425; 2211; 50950; 14723; 2211; 50950; 13021; 2211; 50950; 11319; 2211; 50950; 9617; 2211; 50950; 7915; 2211; 50950; 6213; 2211; 50950; 4510; 2211; 50950; 2808; 2211; 50950; 1106; 2211; 50950; -596; 2211; 50950; -2298; 2211; 50950; -4000; 2211; 50950; -5702; 2211; 50950; -7404; 2211; 50950; -9106; 2211; 50950; -10808; 2211; 50950; -12510; 2211; 50950; -14212; 2211; 50950; -15914; 2211; 50950; -17617; 2211; 50950; -19319; 2211; 50950; -21021; 2211; 50950; -22723; 2211; 50950; -24425; 2211; 50950; -26127; 2211; 50950; -27829; 2211; 50950; -29531; 2211; 50950; -31233; 2211; 50950; -32935; 2211; 50950; -34637; 2211; 50950; -36339; 2211; 50950; -38041; 2211; 50950; -39744; 2211; 50950; -41446; 2211; 50950; -43148; 2211; 50950; -44850; 2211; 50950; -46552; 2211; 50950; -48254; 2211; 50950; -49956];
  [0; 0; 0; 0; 0; 0; 0; 0; 0; 0; 0; 0; 0; 0; 0; 0; 0; 0; 0; 0; 0; 0; 0; 0; 0; 0; 0; 0; 0; 0; 0; 0; 0; 0; 0; 0; 0; 0; 0; 0; 0; 0; 0; 0; 0; 0; 0; 0; 0; 0; 0; 0; 0; 0; 0; 0; 0; 0; 0; 0; 0; 0; 0; 0; 0; 0; 0; 0; 0; 0; 0; 0; 0; 0; 0; 0; 0; 0; 0; 0; 0; 0; 0; 0; 0; 0; 0; 0; 0; 0; 0; 0; 0; 0; 0; 0; 0; 0; 0; 0; 0; 0; 0; 0; 0; 0; 0; 0; 0; 0; 0; 0; 0; 0; 0; 0; 0; 0; 0; 0; 0; 0; 0; 0; 0; 0; 0; 0; 0; 0; 0; 0; 0; 0; 0; 0; 0; 0; 0; 0; 0; 0; 0; 0; 0; 0; 0; 0; 0; 0; 0; 0; 0; 0; 0; 0; 0; 0; 0; 0; 0; 0; 0; 0; 0; 0; 0; 0; 0; 0; 0; 0; 0; 0; 0; 0; 0; 0; 0; 0];
  [0; 0; 0; 0; 0; 0; 0; 0; 0; 0; 0; 0; 0; 0; 0; 0; 0; 0; 0; 0; 0; 0; 0; 0; 0; 0; 0; 0; 0; 0; 0; 0; 0; 0; 0; 0; 0; 0; 0; 0; 0; 0; 0; 0; 0; 0; 0; 0; 0; 0; 0; 0; 0; 0; 0; 0; 0; 0; 0; 0; 0; 0; 0; 0; 0; 0; 0; 0; 0; 0; 0; 0; 0; 0; 0; 0; 0; 0; 0; 0; 0; 0; 0; 0; 0; 0; 0; 0; 0; 0; 0; 0; 0; 0; 0; 0; 0; 0; 0; 0; 0; 0; 0; 0; 0; 0; 0; 0; 0; 0; 0; 0; 0; 0; 0; 0; 0; 0; 0; 0; 0; 0; 0; 0; 0; 0; 0; 0; 0; 0; 0; 0; 0; 0; 0; 0; 0; 0; 0; 0; 0; 0; 0; 0; 0; 0; 0; 0; 0; 0; 0; 0; 0; 0; 0; 0; 0; 0; 0; 0; 0; 0; 0; 0; 0; 0; 0; 0; 0; 0; 0; 0; 0; 0; 0; 0; 0; 0; 0; 0];
  [0; 0; 0; 0; 0; 0; 0; 0; 0; 0; 0; 0; 0; 0; 0; 0; 0; 0; 0; 0; 0; 0; 0; 0; 0; 0; 0; 0; 0; 0; 0; 0; 0; 0; 0; 0; 0; 0; 0; 0; 0; 0; 0; 0; 0; 0; 0; 0; 0; 0; 0; 0; 0; 0; 0; 0; 0; 0; 0; 0; 0; 0; 0; 0; 0; 0; 0; 0; 0; 0; 0; 0; 0; 0; 0; 0; 0; 0; 0; 0; 0; 0; 0; 0; 0; 0; 0; 0; 0; 0; 0; 0; 0; 0; 0; 0; 0; 0; 0; 0; 0; 0; 0; 0; 0; 0; 0; 0; 0; 0; 0; 0; 0; 0; 0; 0; 0; 0; 0; 0; 0; 0; 0; 0; 0; 0; 0; 0; 0; 0; 0; 0; 0; 0; 0; 0; 0; 0; 0; 0; 0; 0; 0; 0; 0; 0; 0; 0; 0; 0; 0; 0; 0; 0; 0; 0; 0; 0; 0; 0; 0; 0; 0; 0; 0; 0; 0; 0; 0; 0; 0; 0; 0; 0; 0; 0; 0; 0; 0; 0];
  [0; 0; 0; 0; 0; 0; 0; 0; 0; 0; 0; 0; 0; 0; 0; 0; 0; 0; 0; 0; 0; 0; 0; 0; 0; 0; 0; 0; 0; 0; 0; 0; 0; 0; 0; 0; 0; 0; 0; 0; 0; 0; 0; 0; 0; 0; 0; 0; 0; 0; 0; 0; 0; 0; 0; 0; 0; 0; 0; 0; 0; 0; 0; 0; 0; 0; 0; 0; 0; 0; 0; 0; 0; 0; 0; 0; 0; 0; 0; 0; 0; 0; 0; 0; 0; 0; 0; 0; 0; 0; 0; 0; 0; 0; 0; 0; 0; 0; 0; 0; 0; 0; 0; 0; 0; 0; 0; 0; 0; 0; 0; 0; 0; 0; 0; 0; 0; 0; 0; 0; 0; 0; 0; 0; 0; 0; 0; 0; 0; 0; 0; 0; 0; 0; 0; 0; 0; 0; 0; 0; 0; 0; 0; 0; 0; 0; 0; 0; 0; 0; 0; 0; 0; 0; 0; 0; 0; 0; 0; 0; 0; 0; 0; 0; 0; 0; 0; 0; 0; 0; 0; 0; 0; 0; 0; 0; 0; 0; 0; 0];
  [0; 0; 0; 0; 0; 0; 0; 0; 0; 0; 0; 0; 0; 0; 0; 0; 0; 0; 0; 0; 0; 0; 0; 0; 0; 0; 0; 0; 0; 0; 0; 0; 0; 0; 0; 0; 0; 0; 0; 0; 0; 0; 0; 0; 0; 0; 0; 0; 0; 0; 0; 0; 0; 0; 0; 0; 0; 0; 0; 0; 0; 0; 0; 0; 0; 0; 0; 0; 0; 0; 0; 0; 0; 0; 0; 0; 0; 0; 0; 0; 0; 0; 0; 0; 0; 0; 0; 0; 0; 0; 0; 0; 0; 0; 0; 0; 0; 0; 0; 0; 0; 0; 0; 0; 0; 0; 0; 0; 0; 0; 0; 0; 0; 0; 0; 0; 0; 0; 0; 0; 0; 0; 0; 0; 0; 0; 0; 0; 0; 0; 0; 0; 0; 0; 0; 0; 0; 0; 0; 0; 0; 0; 0; 0; 0; 0; 0; 0; 0; 0; 0; 0; 0; 0; 0; 0; 0; 0; 0; 0; 0; 0; 0; 0; 0; 0; 0; 0; 0; 0; 0; 0; 0; 0; 0; 0; 0; 0; 0; 0];
  [0; 0; 0; 0; 0; 0; 0; 0; 0; 0; 0; 0; 0; 0; 0; 0; 0; 0; 0; 0; 0; 0; 0; 0; 0; 0; 0; 0; 0; 0; 0; 0; 0; 0; 0; 0; 0; 0; 0; 0; 0; 0; 0; 0; 0; 0; 0; 0; 0; 0; 0; 0; 0; 0; 0; 0; 0; 0; 0; 0; 0; 0; 0; 0; 0; 0; 0; 0; 0; 0; 0; 0; 0; 0; 0; 0; 0; 0; 0; 0; 0; 0; 0; 0; 0; 0; 0; 0; 0; 0; 0; 0; 0; 0; 0; 0; 0; 0; 0; 0; 0; 0; 0; 0; 0; 0; 0; 0; 0; 0; 0; 0; 0; 0; 0; 0; 0; 0; 0; 0; 0; 0; 0; 0; 0; 0; 0; 0; 0; 0; 0; 0; 0; 0; 0; 0; 0; 0; 0; 0; 0; 0; 0; 0; 0; 0; 0; 0; 0; 0; 0; 0; 0; 0; 0; 0; 0; 0; 0; 0; 0; 0; 0; 0; 0; 0; 0; 0; 0; 0; 0; 0; 0; 0; 0; 0; 0; 0; 0; 0]].

(** [rel_dom_eff] (detector.py l.42-129) in hundredths *)
Definition rel_dom_eff_lines : list (list Z) := [
  [100; 100; 100; 100; 100; 100; 100; 100; 100; 100; 100; 100; 100; 100; 100; 100; 100; 100; 100; 100; 100; 100; 100; 100; 100; 100; 100; 100; 100; 100; 100; 100; 100; 100; 100; 100; 100; 100; 100; 100; 100; 100; 100; 100; 100; 100; 100; 100; 100; 100; 100; 100; 100; 100; 100; 100; 100; 100; 100; 100];
  [100; 100; 100; 100; 100; 100; 100; 100; 100; 100; 100; 100; 100; 100; 100; 100; 100; 100; 100; 100; 100; 100; 100; 100; 100; 100; 100; 100; 100; 100; 100; 100; 100; 100; 100; 100; 100; 100; 100; 100; 100; 100; 100; 100; 100; 100; 100; 100; 100; 100; 100; 100; 100; 100; 100; 100; 100; 100; 100; 100];
  [100; 100; 100; 100; 100; 100; 100; 100; 100; 100; 100; 100; 100; 100; 100; 100; 100; 100; 100; 100; 100; 100; 100; 100; 100; 100; 100; 100; 100; 100; 100; 100; 100; 100; 100; 100; 100; 100; 100; 100; 100; 100; 100; 100; 100; 100; 100; 100; 100; 100; 100; 100; 100; 100; 100; 100; 100; 100; 100; 100];
  [100; 100; 100; 100; 100; 100; 100; 100; 100; 100; 100; 100; 100; 100; 100; 100; 100; 100; 100; 100; 100; 100; 100; 100; 100; 100; 100; 100; 100; 100; 100; 100; 100; 100; 100; 100; 100; 100; 100; 100; 100; 100; 100; 100; 100; 100; 100; 100; 100; 100; 100; 100; 100; 100; 100; 100; 100; 100; 100; 100];
  [100; 100; 100; 100; 100; 100; 100; 100; 100; 100; 100; 100; 100; 100; 100; 100; 100; 100; 100; 100; 100; 100; 100; 100; 100; 100; 100; 100; 100; 100; 100; 100; 100; 100; 100; 100; 100; 100; 100; 100; 100; 100; 100; 100; 100; 100; 100; 100; 100; 100; 100; 100; 100; 100; 100; 100; 100; 100; 100; 100];
  [100; 100; 100; 100; 100; 100; 100; 100; 100; 100; 100; 100; 100; 100; 100; 100; 100; 100; 100; 100; 100; 100; 100; 100; 100; 100; 100; 100; 100; 100; 100; 100; 100; 100; 100; 100; 100; 100; 100; 100; 100; 100; 100; 100; 100; 100; 100; 100; 100; 100; 100; 100; 100; 100; 100; 100; 100; 100; 100; 100];
  [100; 100; 100; 100; 100; 100; 100; 100; 100; 100; 100; 100; 100; 100; 100; 100; 100; 100; 100; 100; 100; 100; 100; 100; 100; 100; 100; 100; 100; 100; 100; 100; 100; 100; 100; 100; 100; 100; 100; 100; 100; 100; 100; 100; 100; 100; 100; 100; 100; 100; 100; 100; 100; 100; 100; 100; 100; 100; 100; 100];
  [100; 100; 100; 100; 100; 100; 100; 100; 100; 100; 100; 100; 100; 100; 100; 100; 100; 100; 100; 100; 100; 100; 100; 100; 100; 100; 100; 100; 100; 100; 100; 100; 100; 100; 100; 100; 100; 100; 100; 100; 100; 100; 100; 100; 100; 100; 100; 100; 100; 100; 100; 100; 100; 100; 100; 100; 100; 100; 100; 100];
  [100; 100; 100; 100; 100; 100; 100; 100; 100; 100; 100; 100; 100; 100; 100; 100; 100; 100; 100; 100; 100; 100; 100; 100; 100; 100; 100; 100; 100; 100; 100; 100; 100; 100; 100; 100; 100; 100; 100; 100; 100; 100; 100; 100; 100; 100; 100; 100; 100; 100; 100; 100; 100; 100; 100; 100; 100; 100; 100; 100];
  [100; 100; 100; 100; 100; 100; 100; 100; 100; 100; 100; 100; 100; 100; 100; 100; 100; 100; 100; 100; 100; 100; 100; 100; 100; 100; 100; 100; 100; 100; 100; 100; 100; 100; 100; 100; 100; 100; 100; 100; 100; 100; 100; 100; 100; 100; 100; 100; 100; 100; 100; 100; 100; 100; 100; 100; 100; 100; 100; 100];
  [100; 100; 100; 100; 100; 100; 100; 100; 100; 100; 100; 100; 100; 100; 100; 100; 100; 100; 100; 100; 100; 100; 100; 100; 100; 100; 100; 100; 100; 100; 100; 100; 100; 100; 100; 100; 100; 100; 100; 100; 100; 100; 100; 100; 100; 100; 100; 100; 100; 100; 100; 100; 100; 100; 100; 100; 100; 100; 100; 100];
  [100; 100; 100; 100; 100; 100; 100; 100; 100; 100; 100; 100; 100; 100; 100; 100; 100; 100; 100; 100; 100; 100; 100; 100; 100; 100; 100; 100; 100; 100; 100; 100; 100; 100; 100; 100; 100; 100; 100; 100; 100; 100; 100; 100; 100; 100; 100; 100; 100; 100; 100; 100; 100; 100; 100; 100; 100; 100; 100; 100];
  [100; 100; 100; 100; 100; 100; 100; 100; 100; 100; 100; 100; 100; 100; 100; 100; 100; 100; 100; 100; 100; 100; 100; 100; 100; 100; 100; 100; 100; 100; 100; 100; 100; 100; 100; 100; 100; 100; 100; 100; 100; 100; 100; 100; 100; 100; 100; 100; 100; 100; 100; 100; 100; 100; 100; 100; 100; 100; 100; 100];
  [100; 100; 100; 100; 100; 100; 100; 100; 100; 100; 100; 100; 100; 100; 100; 100; 100; 100; 100; 100; 100; 100; 100; 100; 100; 100; 100; 100; 100; 100; 100; 100; 100; 100; 100; 100; 100; 100; 100; 100; 100; 100; 100; 100; 100; 100; 100; 100; 100; 100; 100; 100; 100; 100; 100; 100; 100; 100; 100; 100];
  [100; 100; 100; 100; 100; 100; 100; 100; 100; 100; 100; 100; 100; 100; 100; 100; 100; 100; 100; 100; 100; 100; 100; 100; 100; 100; 100; 100; 100; 100; 100; 100; 100; 100; 100; 100; 100; 100; 100; 100; 100; 100; 100; 100; 100; 100; 100; 100; 100; 100; 100; 100; 100; 100; 100; 100; 100; 100; 100; 100];
  [100; 100; 100; 100; 100; 100; 100; 100; 100; 100; 100; 100; 100; 100; 100; 100; 100; 100; 100; 100; 100; 100; 100; 100; 100; 100; 100; 100; 100; 100; 100; 100; 100; 100; 100; 100; 100; 100; 100; 100; 100; 100; 100; 100; 100; 100; 100; 100; 100; 100; 100; 100; 100; 100; 100; 100; 100; 100; 100; 100];
  [100; 100; 100; 100; 100; 100; 100; 100; 100; 100; 100; 100; 100; 100; 100; 100; 100; 100; 100; 100; 100; 100; 100; 100; 100; 100; 100; 100; 100; 100; 100; 100; 100; 100; 100; 100; 100; 100; 100; 100; 100; 100; 100; 100; 100; 100; 100; 100; 100; 100; 100; 100; 100; 100; 100; 100; 100; 100; 100; 100];
  [100; 100; 100; 100; 100; 100; 100; 100; 100; 100; 100; 100; 100; 100; 100; 100; 100; 100; 100; 100; 100; 100; 100; 100; 100; 100; 100; 100; 100; 100; 100; 100; 100; 100; 100; 100; 100; 100; 100; 100; 100; 100; 100; 100; 100; 100; 100; 100; 100; 100; 100; 100; 100; 100; 100; 100; 100; 100; 100; 100];
  [100; 100; 100; 100; 100; 100; 100; 100; 100; 100; 100; 100; 100; 100; 100; 100; 100; 100; 100; 100; 100; 100; 100; 100; 100; 100; 100; 100; 100; 100; 100; 100; 100; 100; 100; 100; 100; 100; 100; 100; 100; 100; 100; 100; 100; 100; 100; 100; 100; 100; 100; 100; 100; 100; 100; 100; 100; 100; 100; 100];
  [100; 100; 100; 100; 100; 100; 100; 100; 100; 100; 100; 100; 100; 100; 100; 100; 100; 100; 100; 100; 100; 100; 100; 100; 100; 100; 100; 100; 100; 100; 100; 100; 100; 100; 100; 100; 100; 100; 100; 100; 100; 100; 100; 100; 100; 100; 100; 100; 100; 100; 100; 100; 100; 100; 100; 100; 100; 100; 100; 100];
  [100; 100; 100; 100; 100; 100; 100; 100; 100; 100; 100; 100; 100; 100; 100; 100; 100; 100; 100; 100; 100; 100; 100; 100; 100; 100; 100; 100; 100; 100; 100; 100; 100; 100; 100; 100; 100; 100; 100; 100; 100; 100; 100; 100; 100; 100; 100; 100; 100; 100; 100; 100; 100; 100; 100; 100; 100; 100; 100; 100];
  [100; 100; 100; 100; 100; 100; 100; 100; 100; 100; 100; 100; 100; 100; 100; 100; 100; 100; 100; 100; 100; 100; 100; 100; 100; 100; 100; 100; 100; 100; 100; 100; 100; 100; 100; 100; 100; 100; 100; 100; 100; 100; 100; 100; 100; 100; 100; 100; 100; 100; 100; 100; 100; 100; 100; 100; 100; 100; 100; 100];
  [100; 100; 100; 100; 100; 100; 100; 100; 100; 100; 100; 100; 100; 100; 100; 100; 100; 100; 100; 100; 100; 100; 100; 100; 100; 100; 100; 100; 100; 100; 100; 100; 100; 100; 100; 100; 100; 100; 100; 100; 100; 100; 100; 100; 100; 100; 100; 100; 100; 100; 100; 100; 100; 100; 100; 100; 100; 100; 100; 100];
  [100; 100; 100; 100; 100; 100; 100; 100; 100; 100; 100; 100; 100; 100; 100; 100; 100; 100; 100; 100; 100; 100; 100; 100; 100; 100; 100; 100; 100; 100; 100; 100; 100; 100; 100; 100; 100; 100; 100; 100; 100; 100; 100; 100; 100; 100; 100; 100; 100; 100; 100; 100; 100; 100; 100; 100; 100; 100; 100; 100];
  [100; 100; 100; 100; 100; 100; 100; 100; 100; 100; 100; 100; 100; 100; 100; 100; 100; 100; 100; 100; 100; 100; 100; 100; 100; 100; 100; 100; 100; 100; 100; 100; 100; 100; 100; 100; 100; 100; 100; 100; 100; 100; 100; 100; 100; 100; 100; 100; 100; 100; 100; 100; 100; 100; 100; 100; 100; 100; 100; 100];
  [100; 100; 100; 100; 100; 100; 100; 100; 100; 100; 100; 100; 100; 100; 100; 100; 100; 100; 100; 100; 100; 100; 100; 100; 100; 100; 100; 100; 100; 100; 100; 100; 100; 100; 100; 100; 100; 100; 100; 100; 100; 100; 100; 100; 100; 100; 100; 100; 100; 100; 100; 100; 100; 100; 100; 100; 100; 100; 100; 100];
  [100; 100; 100; 100; 100; 100; 100; 100; 100; 100; 100; 100; 100; 100; 100; 100; 100; 100; 100; 100; 100; 100; 100; 100; 100; 100; 100; 100; 100; 100; 100; 100; 100; 100; 100; 100; 100; 100; 100; 100; 100; 100; 100; 100; 100; 100; 100; 100; 100; 100; 100; 100; 100; 100; 100; 100; 100; 100; 100; 100];
  [100; 100; 100; 100; 100; 100; 100; 100; 100; 100; 100; 100; 100; 100; 100; 100; 100; 100; 100; 100; 100; 100; 100; 100; 100; 100; 100; 100; 100; 100; 100; 100; 100; 100; 100; 100; 100; 100; 100; 100; 100; 100; 100; 100; 100; 100; 100; 100; 100; 100; 100; 100; 100; 100; 100; 100; 100; 100; 100; 100];
  [100; 100; 100; 100; 100; 100; 100; 100; 100; 100; 100; 100; 100; 100; 100; 100; 100; 100; 100; 100; 100; 100; 100; 100; 100; 100; 100; 100; 100; 100; 100; 100; 100; 100; 100; 100; 100; 100; 100; 100; 100; 100; 100; 100; 100; 100; 100; 100; 100; 100; 100; 100; 100; 100; 100; 100; 100; 100; 100; 100];
  [100; 100; 100; 100; 100; 100; 100; 100; 100; 100; 100; 100; 100; 100; 100; 100; 100; 100; 100; 100; 100; 100; 100; 100; 100; 100; 100; 100; 100; 100; 100; 100; 100; 100; 100; 100; 100; 100; 100; 100; 100; 100; 100; 100; 100; 100; 100; 100; 100; 100; 100; 100; 100; 100; 100; 100; 100; 100; 100; 100];
  [100; 100; 100; 100; 100; 100; 100; 100; 100; 100; 100; 100; 100; 100; 100; 100; 100; 100; 100; 100; 100; 100; 100; 100; 100; 100; 100; 100; 100; 100; 100; 100; 100; 100; 100; 100; 100; 100; 100; 100; 100; 100; 100; 100; 100; 100; 100; 100; 100; 100; 100; 100; 100; 100; 100; 100; 100; 100; 100; 100];
  [100; 100; 100; 100; 100; 100; 100; 100; 100; 100; 100; 100; 100; 100; 100; 100; 100; 100; 100; 100; 100; 100; 100; 100; 100; 100; 100; 100; 100; 100; 100; 100; 100; 100; 100; 100; 100; 100; 100; 100; 100; 100; 100; 100; 100; 100; 100; 100; 100; 100; 100; 100; 100; 100; 100; 100; 100; 100; 100; 100];
  [100; 100; 100; 100; 100; 100; 100; 100; 100; 100; 100; 100; 100; 100; 100; 100; 100; 100; 100; 100; 100; 100; 100; 100; 100; 100; 100; 100; 100; 100; 100; 100; 100; 100; 100; 100; 100; 100; 100; 100; 100; 100; 100; 100; 100; 100; 100; 100; 100; 100; 100; 100; 100; 100; 100; 100; 100; 100; 100; 100];
  [100; 100; 100; 100; 100; 100; 100; 100; 100; 100; 100; 100; 100; 100; 100; 100; 100; 100; 100; 100; 100; 100; 100; 100; 100; 100; 100; 100; 100; 100; 100; 100; 100; 100; 100; 100; 100; 100; 100; 100; 100; 100; 100; 100; 100; 100; 100; 100; 100; 100; 100; 100; 100; 100; 100; 100; 100; 100; 100; 100];
  [100; 100; 100; 100; 100; 100; 100; 100; 100; 100; 100; 100; 100; 100; 100; 100; 100; 100; 100; 100; 100; 100; 100; 100; 100; 100; 100; 100; 100; 100; 100; 100; 100; 100; 100; 100; 100; 100; 100; 100; 100; 100; 100; 100; 100; 100; 100; 100; 100; 100; 100; 100; 100; 100; 100; 100; 100; 100; 100; 100];
  [100; 100; 100; 100; 100; 100; 100; 100; 100; 100; 100; 100; 100; 100; 100; 100; 100; 100; 100; 100; 100; 100; 100; 100; 100; 100; 100; 100; 100; 100; 100; 100; 100; 100; 100; 100; 100; 100; 100; 100; 100; 100; 100; 135; 100; 135; 100; 135; 135; 135; 135; 135; 135; 135; 135; 135; 135; 135; 135; 100];
  [100; 100; 100; 100; 100; 100; 100; 100; 100; 100; 100; 100; 100; 100; 100; 100; 100; 100; 100; 100; 100; 100; 100; 100; 100; 100; 100; 100; 100; 100; 100; 100; 100; 100; 100; 100; 100; 100; 100; 100; 100; 100; 100; 100; 100; 100; 100; 100; 100; 100; 100; 100; 100; 100; 100; 100; 100; 100; 100; 100];
  [100; 100; 100; 100; 100; 100; 100; 100; 100; 100; 100; 100; 100; 100; 100; 100; 100; 100; 100; 100; 100; 100; 100; 100; 100; 100; 100; 100; 100; 100; 100; 100; 100; 100; 100; 100; 100; 100; 100; 100; 100; 100; 100; 100; 100; 100; 100; 100; 100; 100; 100; 100; 100; 100; 100; 100; 100; 100; 100; 100];
  [100; 100; 100; 100; 100; 100; 100; 100; 100; 100; 100; 100; 100; 100; 100; 100; 100; 100; 100; 100; 100; 100; 100; 100; 100; 100; 100; 100; 100; 100; 100; 100; 100; 100; 100; 100; 100; 100; 100; 100; 100; 100; 100; 100; 100; 100; 100; 100; 100; 100; 100; 100; 100; 100; 100; 100; 100; 100; 100; 100];
  [100; 100; 100; 100; 100; 100; 100; 100; 100; 100; 100; 100; 100; 100; 100; 100; 100; 100; 100; 100; 100; 100; 100; 100; 100; 100; 100; 100; 100; 100; 100; 100; 100; 100; 100; 100; 100; 100; 100; 100; 100; 100; 100; 100; 100; 100; 100; 100; 100; 100; 100; 100; 100; 100; 100; 100; 100; 100; 100; 100];
  [100; 100; 100; 100; 100; 100; 100; 100; 100; 100; 100; 100; 100; 100; 100; 100; 100; 100; 100; 100; 100; 100; 100; 100; 100; 100; 100; 100; 100; 100; 100; 100; 100; 100; 100; 100; 100; 100; 100; 100; 100; 100; 100; 100; 100; 100; 100; 100; 100; 100; 100; 100; 100; 100; 100; 100; 100; 100; 100; 100];
  [100; 100; 100; 100; 100; 100; 100; 100; 100; 100; 100; 100; 100; 100; 100; 100; 100; 100; 100; 100; 100; 100; 100; 100; 100; 100; 100; 100; 100; 100; 100; 100; 100; 100; 100; 100; 100; 100; 100; 100; 100; 100; 100; 100; 100; 100; 100; 100; 100; 100; 100; 100; 100; 100; 100; 100; 100; 100; 100; 100];
  [100; 100; 100; 100; 100; 100; 100; 100; 100; 100; 100; 100; 100; 100; 100; 100; 100; 100; 100; 100; 100; 100; 100; 100; 100; 100; 100; 100; 100; 100; 100; 100; 100; 100; 100; 100; 100; 100; 100; 100; 100; 100; 100; 100; 100; 100; 100; 100; 100; 100; 100; 100; 100; 100; 135; 100; 100; 100; 100; 100];
  [100; 100; 100; 100; 100; 100; 100; 100; 100; 100; 100; 100; 100; 100; 100; 100; 100; 100; 100; 100; 100; 100; 100; 100; 100; 100; 100; 100; 100; 100; 100; 100; 100; 100; 100; 100; 100; 100; 100; 100; 100; 100; 100; 100; 100; 100; 100; 100; 100; 100; 100; 100; 100; 100; 100; 100; 100; 100; 100; 100];
  [100; 100; 100; 100; 100; 100; 100; 100; 100; 100; 100; 100; 100; 100; 100; 100; 100; 100; 100; 100; 100; 100; 100; 100; 100; 100; 100; 100; 100; 100; 100; 100; 100; 100; 100; 100; 100; 100; 100; 100; 100; 100; 100; 100; 100; 100; 100; 100; 100; 100; 100; 100; 100; 100; 100; 100; 100; 100; 100; 100];
  [100; 100; 100; 100; 100; 100; 100; 100; 100; 100; 100; 100; 100; 100; 100; 100; 100; 100; 100; 100; 100; 100; 100; 100; 100; 100; 100; 100; 100; 100; 100; 100; 100; 100; 100; 100; 100; 100; 100; 100; 100; 100; 100; 100; 100; 100; 100; 100; 100; 100; 100; 100; 100; 100; 100; 100; 100; 100; 100; 100];
  [100; 100; 100; 100; 100; 100; 100; 100; 100; 100; 100; 100; 100; 100; 100; 100; 100; 100; 100; 100; 100; 100; 100; 100; 100; 100; 100; 100; 100; 100; 100; 100; 100; 100; 100; 100; 100; 100; 100; 100; 100; 100; 100; 100; 100; 100; 100; 100; 100; 100; 100; 100; 100; 100; 100; 100; 100; 100; 100; 100];
  [100; 100; 100; 100; 100; 100; 100; 100; 100; 100; 100; 100; 100; 100; 100; 100; 100; 100; 100; 100; 100; 100; 100; 100; 100; 100; 100; 100; 100; 100; 100; 100; 100; 100; 100; 100; 100; 100; 100; 100; 100; 100; 100; 100; 100; 100; 100; 100; 100; 100; 100; 100; 100; 100; 100; 100; 100; 100; 100; 100];
  [100; 100; 100; 100; 100; 100; 100; 100; 100; 100; 100; 100; 100; 100; 100; 100; 100; 100; 100; 100; 100; 100; 100; 100; 100; 100; 100; 100; 100; 100; 100; 100; 100; 100; 100; 100; 100; 100; 100; 100; 100; 100; 100; 100; 100; 100; 100; 100; 100; 100; 100; 100; 100; 100; 100; 100; 100; 100; 100; 100];
  [100; 100; 100; 100; 100; 100; 100; 100; 100; 100; 100; 100; 100; 100; 100; 100; 100; 100; 100; 100; 100; 100; 100; 100; 100; 100; 100; 100; 100; 100; 100; 100; 100; 100; 100; 100; 100; 100; 100; 100; 100; 100; 100; 100; 100; 100; 100; 100; 100; 100; 100; 100; 100; 100; 100; 100; 100; 100; 100; 100];
  [100; 100; 100; 100; 100; 100; 100; 100; 100; 100; 100; 100; 100; 100; 100; 100; 100; 100; 100; 100; 100; 100; 100; 100; 100; 100; 100; 100; 100; 100; 100; 100; 100; 100; 100; 100; 100; 100; 100; 100; 100; 100; 100; 100; 100; 100; 100; 100; 100; 100; 100; 100; 100; 100; 100; 100; 100; 100; 100; 100];
  [100; 100; 100; 100; 100; 100; 100; 100; 100; 100; 100; 100; 100; 100; 100; 100; 100; 100; 100; 100; 100; 100; 100; 100; 100; 100; 100; 100; 100; 100; 100; 100; 100; 100; 100; 100; 100; 100; 100; 100; 100; 100; 100; 100; 100; 100; 100; 100; 100; 100; 100; 100; 100; 100; 100; 100; 100; 100; 100; 100];
  [100; 100; 100; 100; 100; 100; 100; 100; 100; 100; 100; 100; 100; 100; 100; 100; 100; 100; 100; 100; 100; 100; 100; 100; 100; 100; 100; 100; 100; 100; 100; 100; 100; 100; 100; 100; 100; 100; 100; 100; 100; 100; 100; 100; 100; 100; 100; 100; 100; 100; 100; 100; 100; 100; 100; 100; 100; 100; 100; 100];
  [100; 100; 100; 100; 100; 100; 100; 100; 100; 100; 100; 100; 100; 100; 100; 100; 100; 100; 100; 100; 100; 100; 100; 100; 100; 100; 100; 100; 100; 100; 100; 100; 100; 100; 100; 100; 100; 100; 100; 100; 100; 100; 100; 100; 100; 100; 100; 100; 100; 100; 100; 100; 100; 100; 100; 100; 100; 100; 100; 100];
  [100; 100; 100; 100; 100; 100; 100; 100; 100; 100; 100; 100; 100; 100; 100; 100; 100; 100; 100; 100; 100; 100; 100; 100; 100; 100; 100; 100; 100; 100; 100; 100; 100; 100; 100; 100; 100; 100; 100; 100; 100; 100; 100; 100; 100; 100; 100; 100; 100; 100; 100; 100; 100; 100; 100; 100; 100; 100; 100; 100];
  [100; 100; 100; 100; 100; 100; 100; 100; 100; 100; 100; 100; 100; 100; 100; 100; 100; 100; 100; 100; 100; 100; 100; 100; 100; 100; 100; 100; 100; 100; 100; 100; 100; 100; 100; 100; 100; 100; 100; 100; 100; 100; 100; 100; 100; 100; 100; 100; 100; 100; 100; 100; 100; 100; 100; 100; 100; 100; 100; 100];
  [100; 100; 100; 100; 100; 100; 100; 100; 100; 100; 100; 100; 100; 100; 100; 100; 100; 100; 100; 100; 100; 100; 100; 100; 100; 100; 100; 100; 100; 100; 100; 100; 100; 100; 100; 100; 100; 100; 100; 100; 100; 100; 100; 100; 100; 100; 100; 100; 100; 100; 100; 100; 100; 100; 100; 100; 100; 100; 100; 100];
  [100; 100; 100; 100; 100; 100; 100; 100; 100; 100; 100; 100; 100; 100; 100; 100; 100; 100; 100; 100; 100; 100; 100; 100; 100; 100; 100; 100; 100; 100; 100; 100; 100; 100; 100; 100; 100; 100; 100; 100; 100; 100; 100; 100; 100; 100; 100; 100; 100; 100; 100; 100; 100; 100; 100; 100; 100; 100; 100; 100];
  [100; 100; 100; 100; 100; 100; 100; 100; 100; 100; 100; 100; 100; 100; 100; 100; 100; 100; 100; 100; 100; 100; 100; 100; 100; 100; 100; 100; 100; 100; 100; 100; 100; 100; 100; 100; 100; 100; 100; 100; 100; 100; 100; 100; 100; 100; 100; 100; 100; 100; 100; 100; 100; 100; 100; 100; 100; 100; 100; 100];
  [100; 100; 100; 100; 100; 100; 100; 100; 100; 100; 100; 100; 100; 100; 100; 100; 100; 100; 100; 100; 100; 100; 100; 100; 100; 100; 100; 100; 100; 100; 100; 100; 100; 100; 100; 100; 100; 100; 100; 100; 100; 100; 100; 100; 100; 100; 100; 100; 100; 100; 100; 100; 100; 100; 100; 100; 100; 100; 100; 100];
  [100; 100; 100; 100; 100; 100; 100; 100; 100; 100; 100; 100; 100; 100; 100; 100; 100; 100; 100; 100; 100; 100; 100; 100; 100; 100; 100; 100; 100; 100; 100; 100; 100; 100; 100; 100; 100; 100; 100; 100; 100; 100; 100; 100; 100; 100; 100; 100; 100; 100; 100; 100; 100; 100; 100; 100; 100; 100; 100; 100];
  [100; 100; 100; 100; 100; 100; 100; 100; 100; 100; 100; 100; 100; 100; 100; 100; 100; 100; 100; 100; 100; 100; 100; 100; 100; 100; 100; 100; 100; 100; 100; 100; 100; 100; 100; 100; 100; 100; 100; 100; 100; 100; 100; 100; 100; 100; 100; 100; 100; 100; 100; 100; 100; 100; 100; 100; 100; 100; 100; 100];
  [100; 100; 100; 100; 100; 100; 100; 100; 100; 100; 100; 100; 100; 100; 100; 100; 100; 100; 100; 100; 100; 100; 100; 100; 100; 100; 100; 100; 100; 100; 100; 100; 100; 100; 100; 100; 100; 100; 100; 100; 100; 100; 100; 100; 100; 100; 100; 100; 100; 100; 100; 100; 100; 100; 100; 100; 100; 100; 100; 100];
  [100; 100; 100; 100; 100; 100; 100; 100; 100; 100; 100; 100; 100; 100; 100; 100; 100; 100; 100; 100; 100; 100; 100; 100; 100; 100; 100; 100; 100; 100; 100; 100; 100; 100; 100; 100; 100; 100; 100; 100; 100; 100; 100; 100; 100; 100; 100; 100; 100; 100; 100; 100; 100; 100; 100; 100; 100; 100; 100; 100];
  [100; 100; 100; 100; 100; 100; 100; 100; 100; 100; 100; 100; 100; 100; 100; 100; 100; 100; 100; 100; 100; 100; 100; 100; 100; 100; 100; 100; 100; 100; 100; 100; 100; 100; 100; 100; 100; 100; 100; 100; 100; 100; 100; 100; 100; 100; 100; 100; 100; 100; 100; 100; 100; 100; 100; 100; 100; 100; 100; 100];
  [100; 100; 100; 100; 100; 100; 100; 100; 100; 100; 100; 100; 100; 100; 100; 100; 100; 100; 100; 100; 100; 100; 100; 100; 100; 100; 100; 100; 100; 100; 100; 100; 100; 100; 100; 100; 100; 100; 100; 100; 100; 100; 100; 100; 100; 100; 100; 100; 100; 100; 100; 100; 100; 100; 100; 100; 100; 100; 100; 100];
  [100; 100; 100; 100; 100; 100; 100; 100; 100; 100; 100; 100; 100; 100; 100; 100; 100; 100; 100; 100; 100; 100; 100; 100; 100; 100; 100; 100; 100; 100; 100; 100; 100; 100; 100; 100; 100; 100; 100; 100; 100; 100; 100; 100; 100; 100; 100; 100; 100; 100; 100; 100; 100; 100; 100; 100; 100; 100; 100; 100];
  [100; 100; 100; 100; 100; 100; 100; 100; 100; 100; 100; 100; 100; 100; 100; 100; 100; 100; 100; 100; 100; 100; 100; 100; 100; 100; 100; 100; 100; 100; 100; 100; 100; 100; 100; 100; 100; 100; 100; 100; 100; 100; 100; 100; 100; 100; 100; 100; 100; 100; 100; 100; 100; 100; 100; 100; 100; 100; 100; 100];
  [100; 100; 100; 100; 100; 100; 100; 100; 100; 100; 100; 100; 100; 100; 100; 100; 100; 100; 100; 100; 100; 100; 100; 100; 100; 100; 100; 100; 100; 100; 100; 100; 100; 100; 100; 100; 100; 100; 100; 100; 100; 100; 100; 100; 100; 100; 100; 100; 100; 100; 100; 100; 100; 100; 100; 100; 100; 100; 100; 100];
  [100; 100; 100; 100; 100; 100; 100; 100; 100; 100; 100; 100; 100; 100; 100; 100; 100; 100; 100; 100; 100; 100; 100; 100; 100; 100; 100; 100; 100; 100; 100; 100; 100; 100; 100; 100; 100; 100; 100; 100; 100; 100; 100; 100; 100; 100; 100; 100; 100; 100; 100; 100; 100; 100; 100; 100; 100; 100; 100; 100];
  [100; 100; 100; 100; 100; 100; 100; 100; 100; 100; 100; 100; 100; 100; 100; 100; 100; 100; 100; 100; 100; 100; 100; 100; 100; 100; 100; 100; 100; 100; 100; 100; 100; 100; 100; 100; 100; 100; 100; 100; 100; 100; 100; 100; 100; 100; 100; 100; 100; 100; 100; 100; 100; 100; 100; 100; 100; 100; 100; 100];
  [100; 100; 100; 100; 100; 100; 100; 100; 100; 100; 100; 100; 100; 100; 100; 100; 100; 100; 100; 100; 100; 100; 100; 100; 100; 100; 100; 100; 100; 100; 100; 100; 100; 100; 100; 100; 100; 100; 100; 100; 100; 100; 100; 100; 100; 100; 100; 100; 100; 100; 100; 100; 100; 100; 100; 100; 100; 100; 100; 100];
  [100; 100; 100; 100; 100; 100; 100; 100; 100; 100; 100; 100; 100; 100; 100; 100; 100; 100; 100; 100; 100; 100; 100; 100; 100; 100; 100; 100; 100; 100; 100; 100; 100; 100; 100; 100; 100; 100; 100; 100; 100; 100; 100; 100; 100; 100; 100; 100; 100; 100; 100; 100; 100; 100; 100; 100; 100; 100; 100; 100];
  [100; 100; 100; 100; 100; 100; 100; 100; 100; 100; 100; 100; 100; 100; 100; 100; 100; 100; 100; 100; 100; 100; 100; 100; 100; 100; 100; 100; 100; 100; 100; 100; 100; 100; 100; 100; 100; 100; 100; 100; 100; 100; 100; 100; 100; 100; 100; 100; 100; 100; 100; 100; 100; 100; 100; 100; 100; 100; 100; 100];
  [100; 100; 100; 100; 100; 100; 100; 100; 100; 100; 100; 100; 100; 100; 100; 100; 100; 100; 100; 100; 100; 100; 100; 100; 100; 100; 100; 100; 100; 100; 100; 100; 100; 100; 100; 100; 100; 100; 100; 100; 100; 100; 100; 100; 100; 100; 100; 100; 100; 100; 100; 100; 100; 100; 100; 100; 100; 100; 100; 100];
  [100; 100; 100; 100; 100; 100; 100; 100; 100; 100; 100; 100; 100; 100; 100; 100; 100; 100; 100; 100; 100; 100; 100; 100; 100; 100; 100; 100; 100; 100; 100; 100; 100; 100; 100; 100; 100; 100; 100; 100; 100; 100; 100; 100; 100; 100; 100; 100; 100; 100; 100; 100; 100; 100; 100; 100; 100; 100; 100; 100];
  [100; 100; 100; 100; 100; 100; 100; 100; 100; 100; 100; 100; 100; 100; 100; 100; 100; 100; 100; 100; 100; 100; 100; 100; 100; 100; 100; 100; 100; 100; 100; 100; 100; 100; 100; 100; 100; 100; 100; 100; 100; 100; 100; 100; 100; 100; 100; 100; 100; 100; 100; 100; 100; 100; 100; 100; 100; 100; 100; 100];
  [100; 100; 100; 100; 100; 100; 100; 100; 100; 100; 100; 100; 100; 100; 100; 100; 100; 100; 100; 100; 100; 100; 100; 100; 100; 100; 100; 100; 100; 100; 100; 100; 100; 100; 100; 100; 100; 100; 100; 100; 100; 100; 100; 100; 100; 100; 100; 100; 100; 100; 100; 100; 100; 100; 100; 100; 100; 100; 100; 100];
  [100; 100; 100; 100; 100; 100; 100; 100; 100; 100; 100; 100; 100; 100; 100; 100; 100; 100; 100; 100; 100; 100; 100; 100; 100; 100; 100; 100; 100; 135; 135; 100; 135; 135; 135; 135; 135; 135; 135; 135; 100; 135; 100; 135; 100; 100; 100; 100; 100; 100; 100; 100; 100; 100; 100; 100; 100; 100; 100; 100];
  [100; 100; 100; 100; 100; 100; 100; 100; 100; 100; 100; 100; 100; 100; 100; 100; 100; 100; 100; 100; 100; 100; 100; 100; 100; 100; 100; 100; 100; 135; 135; 135; 135; 135; 135; 135; 135; 135; 135; 135; 135; 135; 135; 100; 100; 100; 100; 100; 100; 100; 100; 100; 100; 100; 100; 100; 100; 100; 100; 100];
  [135; 135; 135; 135; 135; 135; 135; 135; 135; 135; 135; 135; 135; 135; 135; 135; 135; 135; 135; 135; 135; 135; 135; 135; 135; 135; 135; 135; 135; 135; 135; 135; 135; 135; 135; 135; 135; 135; 135; 135; 135; 135; 135; 135; 135; 135; 135; 135; 135; 135; 135; 135; 135; 135; 135; 135; 135; 135; 135; 135];
  [135; 135; 135; 135; 135; 135; 135; 135; 135; 135; 135; 135; 135; 135; 135; 135; 135; 135; 135; 135; 135; 135; 135; 135; 135; 135; 135; 135; 135; 135; 135; 135; 135; 135; 135; 135; 135; 135; 135; 135; 135; 135; 135; 135; 135; 135; 135; 135; 135; 135; 135; 135; 135; 135; 135; 135; 135; 135; 135; 135];
  [135; 135; 135; 135; 135; 135; 135; 135; 135; 135; 135; 135; 135; 135; 135; 135; 135; 135; 135; 135; 135; 135; 135; 135; 135; 135; 135; 135; 135; 135; 135; 135; 135; 135; 135; 135; 135; 135; 135; 135; 135; 135; 135; 135; 135; 135; 135; 135; 135; 135; 135; 135; 135; 135; 135; 135; 135; 135; 135; 135];
  [135; 135; 135; 135; 135; 135; 135; 135; 135; 135; 135; 135; 135; 135; 135; 135; 135; 135; 135; 135; 135; 135; 135; 135; 135; 135; 135; 135; 135; 135; 135; 135; 135; 135; 135; 135; 135; 135; 135; 135; 135; 135; 135; 135; 135; 135; 135; 135; 135; 135; 135; 135; 135; 135; 135; 135; 135; 135; 135; 135];
  [135; 135; 135; 135; 135; 135; 135; 135; 135; 135; 135; 135; 135; 135; 135; 135; 135; 135; 135; 135; 135; 135; 135; 135; 135; 135; 135; 135; 135; 135; 135; 135; 135; 135; 135; 135; 135; 135; 135; 135; 135; 135; 135; 135; 135; 135; 135; 135; 135; 135; 135; 135; 135; 135; 135; 135; 135; 135; 135; 135];
  [135; 135; 135; 135; 135; 135; 135; 135; 135; 135; 135; 135; 135; 135; 135; 135; 135; 135; 135; 135; 135; 135; 135; 135; 135; 135; 135; 135; 135; 135; 135; 135; 135; 135; 135; 135; 135; 135; 135; 135; 135; 135; 135; 135; 135; 135; 135; 135; 135; 135; 135; 135; 135; 135; 135; 135; 135; 135; 135; 135]].

(** [rel_dom_eff_without_bad_doms] (detector.py l.132-219) in hundredths *)
Definition rel_dom_eff_without_bad_doms_lines : list (list Z) := [
  [100; 100; 100; 100; 100; 100; 100; 100; 100; 100; 100; 100; 100; 100; 100; 100; 100; 100; 100; 100; 100; 100; 100; 100; 100; 100; 100; 100; 100; 100; 100; 100; 100; 100; 100; 100; 100; 100; 100; 100; 100; 100; 100; 100; 100; 100; 100; 100; 100; 100; 100; 100; 100; 100; 100; 100; 100; 100; 100; 100];
  [100; 100; 100; 100; 100; 100; 100; 100; 100; 100; 100; 100; 100; 100; 100; 100; 100; 100; 100; 100; 100; 100; 100; 100; 100; 100; 100; 100; 100; 100; 100; 100; 100; 100; 100; 100; 100; 100; 100; 100; 100; 100; 100; 100; 100; 100; 100; 100; 100; 100; 100; 100; 100; 100; 100; 100; 100; 100; 100; 100];
  [100; 100; 100; 100; 100; 100; 100; 100; 100; 100; 100; 100; 100; 100; 100; 100; 100; 100; 100; 100; 100; 100; 100; 100; 100; 100; 100; 100; 100; 100; 100; 100; 100; 100; 100; 100; 100; 100; 100; 100; 100; 100; 100; 100; 100; 100; 100; 100; 100; 100; 100; 100; 100; 100; 100; 100; 100; 100; 100; 100];
  [100; 100; 100; 100; 100; 100; 100; 100; 100; 100; 100; 100; 100; 100; 100; 100; 100; 100; 100; 100; 100; 100; 100; 100; 100; 100; 100; 100; 100; 100; 100; 100; 100; 100; 100; 100; 100; 100; 100; 100; 100; 100; 100; 100; 100; 100; 100; 100; 100; 100; 100; 100; 100; 100; 100; 100; 100; 100; 100; 100];
  [100; 100; 100; 100; 100; 100; 100; 100; 100; 100; 100; 100; 100; 100; 100; 100; 100; 100; 100; 100; 0; 0; 100; 100; 100; 100; 100; 100; 100; 100; 100; 100; 100; 100; 100; 100; 100; 100; 100; 100; 100; 100; 100; 100; 100; 100; 100; 100; 100; 100; 100; 100; 100; 100; 100; 100; 100; 100; 100; 100];
  [100; 100; 100; 100; 100; 100; 100; 100; 100; 100; 100; 100; 100; 100; 100; 100; 100; 100; 100; 100; 100; 100; 100; 100; 100; 100; 100; 100; 100; 100; 100; 100; 100; 100; 100; 100; 100; 100; 100; 100; 100; 100; 100; 100; 100; 100; 100; 100; 100; 100; 100; 100; 100; 100; 100; 100; 100; 100; 100; 100];
  [100; 100; 100; 100; 100; 100; 100; 100; 100; 100; 100; 100; 100; 100; 100; 100; 100; 100; 100; 100; 100; 100; 100; 100; 100; 100; 100; 100; 100; 100; 100; 100; 100; 100; 0; 0; 0; 0; 0; 0; 0; 0; 100; 100; 0; 0; 100; 100; 100; 100; 100; 100; 100; 100; 100; 100; 100; 100; 100; 100];
  [100; 100; 100; 100; 100; 100; 100; 100; 100; 100; 100; 100; 100; 100; 100; 100; 100; 100; 100; 100; 100; 100; 100; 100; 100; 100; 100; 100; 100; 100; 100; 100; 100; 100; 100; 100; 100; 100; 100; 100; 100; 100; 100; 100; 100; 100; 100; 100; 100; 100; 100; 100; 100; 100; 100; 100; 100; 100; 0; 0];
  [100; 100; 100; 100; 100; 100; 100; 100; 100; 100; 100; 100; 100; 100; 0; 0; 100; 100; 100; 100; 100; 100; 100; 100; 100; 100; 100; 100; 100; 100; 100; 100; 100; 100; 100; 100; 100; 100; 100; 100; 100; 100; 100; 100; 100; 100; 100; 100; 100; 100; 100; 100; 100; 100; 100; 100; 100; 100; 100; 100];
  [100; 100; 100; 100; 100; 100; 100; 100; 100; 100; 100; 100; 100; 100; 100; 100; 100; 100; 100; 100; 100; 100; 100; 100; 100; 100; 100; 100; 100; 100; 100; 100; 100; 100; 100; 100; 100; 100; 100; 100; 100; 100; 100; 100; 100; 100; 100; 100; 100; 100; 100; 100; 100; 100; 100; 100; 100; 100; 100; 100];
  [0; 0; 100; 100; 100; 100; 100; 100; 100; 100; 100; 100; 100; 100; 100; 100; 100; 100; 100; 100; 100; 100; 100; 100; 100; 100; 100; 100; 100; 100; 100; 100; 100; 100; 100; 100; 100; 100; 100; 100; 100; 100; 100; 100; 100; 100; 100; 100; 100; 100; 100; 100; 100; 100; 100; 100; 100; 100; 100; 100];
  [100; 100; 100; 100; 100; 100; 100; 100; 100; 100; 100; 100; 100; 100; 100; 100; 100; 100; 100; 100; 100; 100; 100; 100; 100; 100; 100; 100; 100; 100; 100; 100; 100; 100; 100; 100; 100; 100; 100; 100; 100; 100; 100; 100; 100; 100; 100; 100; 100; 100; 100; 100; 100; 100; 100; 100; 100; 100; 100; 100];
  [100; 100; 100; 100; 100; 100; 100; 100; 100; 100; 100; 100; 100; 100; 100; 100; 100; 100; 100; 100; 100; 100; 100; 100; 100; 100; 100; 100; 100; 100; 100; 100; 100; 100; 100; 100; 100; 100; 100; 100; 100; 100; 100; 100; 100; 100; 100; 100; 100; 100; 100; 100; 100; 100; 100; 100; 100; 100; 100; 100];
  [100; 100; 100; 100; 100; 100; 100; 100; 100; 100; 100; 100; 100; 100; 100; 100; 100; 100; 100; 100; 100; 100; 100; 100; 100; 100; 100; 100; 100; 100; 100; 100; 100; 100; 100; 100; 100; 100; 100; 100; 100; 100; 100; 100; 100; 100; 100; 100; 100; 100; 100; 100; 100; 100; 100; 100; 100; 100; 100; 100];
  [100; 100; 100; 100; 100; 100; 100; 100; 100; 100; 100; 100; 100; 100; 100; 100; 100; 100; 100; 100; 100; 100; 100; 100; 100; 100; 100; 100; 100; 100; 100; 100; 100; 100; 100; 100; 100; 100; 100; 100; 100; 100; 100; 100; 100; 100; 100; 100; 100; 100; 100; 100; 100; 100; 100; 100; 100; 100; 100; 100];
  [100; 100; 100; 100; 100; 100; 100; 100; 100; 100; 100; 100; 100; 100; 100; 100; 100; 100; 100; 100; 100; 100; 100; 100; 100; 100; 100; 100; 100; 100; 100; 100; 100; 100; 100; 100; 100; 100; 100; 100; 100; 100; 100; 100; 100; 100; 100; 100; 100; 100; 100; 100; 100; 100; 100; 100; 100; 100; 100; 100];
  [100; 100; 100; 100; 100; 100; 100; 100; 100; 100; 100; 100; 100; 100; 100; 100; 100; 100; 100; 100; 100; 100; 100; 100; 100; 100; 100; 100; 100; 100; 100; 100; 100; 100; 100; 100; 100; 100; 100; 100; 100; 100; 100; 100; 100; 100; 100; 100; 100; 100; 100; 100; 100; 100; 100; 100; 100; 100; 100; 100];
  [100; 100; 100; 100; 100; 100; 100; 100; 100; 100; 100; 100; 100; 100; 100; 100; 100; 100; 100; 100; 100; 100; 100; 100; 100; 100; 100; 100; 100; 100; 100; 100; 100; 100; 100; 100; 100; 100; 100; 100; 100; 100; 100; 100; 0; 0; 100; 100; 100; 100; 100; 100; 100; 100; 100; 100; 100; 100; 100; 100];
  [100; 100; 100; 100; 100; 100; 100; 100; 100; 100; 100; 100; 100; 100; 100; 100; 100; 100; 100; 100; 100; 100; 100; 100; 100; 100; 100; 100; 100; 100; 100; 100; 100; 100; 100; 100; 100; 100; 100; 100; 100; 100; 100; 100; 100; 100; 100; 100; 100; 100; 100; 100; 100; 100; 100; 100; 100; 100; 100; 100];
  [100; 100; 100; 100; 100; 100; 100; 100; 100; 100; 100; 100; 100; 100; 100; 100; 100; 100; 100; 100; 100; 100; 100; 100; 100; 100; 100; 100; 100; 100; 100; 100; 100; 100; 100; 100; 100; 100; 100; 100; 100; 100; 100; 100; 100; 100; 100; 100; 100; 100; 100; 100; 100; 100; 100; 100; 100; 100; 100; 100];
  [100; 100; 100; 100; 100; 100; 100; 100; 100; 100; 100; 100; 100; 100; 100; 100; 100; 100; 100; 100; 100; 100; 100; 100; 100; 100; 100; 100; 100; 100; 100; 100; 100; 100; 100; 100; 100; 100; 100; 100; 100; 100; 100; 100; 100; 100; 100; 100; 100; 100; 100; 100; 100; 100; 100; 100; 100; 100; 100; 100];
  [100; 100; 100; 100; 100; 100; 100; 100; 100; 100; 100; 100; 100; 100; 100; 100; 100; 100; 100; 100; 100; 100; 100; 100; 100; 100; 100; 100; 100; 100; 100; 100; 100; 100; 100; 100; 100; 100; 100; 100; 100; 100; 100; 100; 100; 100; 100; 100; 100; 100; 100; 100; 100; 100; 100; 100; 100; 100; 100; 100];
  [100; 100; 100; 100; 100; 100; 100; 100; 100; 100; 100; 100; 100; 100; 100; 100; 100; 100; 100; 100; 100; 100; 100; 100; 100; 100; 100; 100; 100; 100; 100; 100; 100; 100; 100; 100; 100; 100; 100; 100; 100; 100; 100; 100; 100; 100; 100; 100; 100; 100; 100; 100; 100; 100; 100; 100; 100; 100; 100; 100];
  [100; 100; 100; 100; 100; 100; 100; 100; 100; 100; 100; 100; 100; 100; 100; 100; 100; 100; 100; 100; 100; 100; 100; 100; 100; 100; 100; 100; 100; 100; 100; 100; 100; 100; 100; 100; 100; 100; 100; 100; 100; 100; 100; 100; 100; 100; 100; 100; 100; 100; 100; 100; 100; 100; 100; 0; 100; 100; 100; 100];
  [100; 100; 100; 100; 100; 100; 100; 100; 100; 100; 100; 100; 100; 100; 100; 100; 100; 100; 100; 100; 100; 100; 100; 100; 100; 100; 100; 100; 100; 100; 100; 100; 100; 100; 100; 100; 100; 100; 100; 100; 100; 100; 100; 100; 100; 100; 100; 100; 100; 100; 100; 100; 100; 100; 100; 100; 100; 100; 100; 100];
  [100; 100; 100; 100; 100; 100; 100; 100; 100; 100; 100; 100; 100; 100; 100; 100; 100; 100; 100; 100; 100; 100; 100; 100; 100; 100; 100; 100; 100; 100; 100; 100; 100; 100; 100; 100; 100; 100; 100; 100; 100; 100; 100; 100; 100; 0; 100; 100; 100; 100; 100; 100; 100; 100; 100; 100; 100; 100; 100; 100];
  [100; 100; 100; 100; 100; 100; 0; 0; 100; 100; 100; 100; 100; 100; 100; 100; 100; 100; 100; 100; 100; 100; 100; 100; 100; 100; 100; 100; 100; 100; 100; 100; 100; 100; 100; 100; 100; 100; 100; 100; 100; 100; 100; 100; 100; 100; 100; 100; 100; 100; 100; 100; 100; 100; 100; 100; 100; 100; 100; 100];
  [100; 100; 100; 100; 100; 100; 100; 100; 100; 100; 100; 100; 100; 100; 100; 100; 100; 100; 100; 100; 100; 100; 100; 100; 100; 100; 100; 100; 100; 100; 100; 100; 100; 100; 100; 100; 100; 100; 100; 100; 0; 0; 100; 100; 100; 100; 100; 100; 100; 100; 100; 100; 100; 100; 100; 100; 100; 100; 100; 100];
  [100; 100; 100; 100; 100; 100; 100; 100; 100; 100; 100; 100; 100; 100; 100; 100; 100; 100; 100; 100; 100; 100; 100; 100; 100; 100; 100; 100; 100; 100; 100; 100; 100; 100; 100; 100; 100; 100; 100; 100; 100; 100; 100; 100; 100; 100; 100; 100; 100; 100; 100; 100; 100; 100; 100; 100; 100; 100; 0; 0];
  [100; 100; 100; 100; 100; 100; 100; 100; 100; 100; 100; 100; 100; 100; 100; 100; 100; 100; 100; 100; 100; 100; 0; 100; 100; 100; 100; 100; 100; 100; 100; 100; 100; 100; 100; 100; 100; 100; 100; 100; 100; 100; 100; 100; 100; 100; 100; 100; 100; 100; 100; 100; 100; 100; 100; 100; 100; 100; 100; 0];
  [100; 100; 100; 100; 100; 100; 100; 100; 100; 100; 100; 100; 100; 100; 100; 100; 100; 100; 100; 100; 100; 100; 100; 100; 100; 100; 100; 100; 100; 100; 100; 100; 100; 100; 100; 100; 100; 100; 100; 100; 100; 100; 100; 100; 100; 100; 100; 100; 100; 100; 100; 100; 100; 100; 100; 100; 100; 100; 100; 100];
  [100; 100; 100; 100; 100; 100; 100; 100; 100; 100; 100; 100; 100; 100; 100; 100; 100; 100; 100; 100; 100; 100; 100; 100; 100; 100; 100; 100; 100; 100; 100; 100; 100; 100; 100; 100; 100; 100; 100; 100; 100; 100; 100; 100; 100; 100; 100; 100; 100; 100; 100; 100; 100; 100; 100; 100; 0; 0; 100; 100];
  [100; 100; 100; 100; 100; 100; 100; 100; 100; 100; 100; 100; 100; 100; 100; 100; 100; 100; 100; 100; 100; 100; 100; 100; 100; 100; 100; 100; 100; 100; 100; 100; 100; 100; 100; 100; 100; 100; 100; 100; 100; 100; 100; 100; 100; 100; 100; 100; 100; 100; 100; 100; 100; 100; 100; 100; 100; 100; 100; 100];
  [100; 100; 100; 100; 100; 100; 100; 100; 100; 100; 0; 0; 0; 0; 0; 100; 0; 100; 100; 100; 100; 0; 100; 100; 100; 100; 100; 100; 100; 100; 100; 100; 100; 100; 100; 100; 100; 100; 100; 100; 100; 100; 100; 100; 100; 100; 100; 100; 100; 100; 100; 100; 100; 100; 100; 100; 100; 100; 100; 100];
  [100; 100; 100; 100; 100; 100; 100; 100; 100; 100; 100; 100; 100; 100; 100; 100; 100; 100; 100; 100; 100; 100; 100; 100; 100; 100; 100; 100; 100; 100; 100; 100; 100; 100; 100; 100; 100; 100; 100; 100; 100; 100; 100; 100; 100; 100; 100; 100; 100; 100; 100; 100; 100; 100; 100; 100; 100; 100; 100; 100];
  [100; 100; 100; 100; 100; 100; 100; 100; 100; 100; 100; 100; 100; 100; 100; 100; 100; 100; 100; 100; 100; 100; 100; 100; 100; 100; 100; 100; 100; 100; 100; 100; 100; 100; 100; 100; 100; 100; 100; 100; 100; 100; 100; 135; 100; 135; 100; 135; 135; 135; 135; 135; 135; 135; 135; 135; 135; 135; 135; 100];
  [100; 100; 100; 100; 100; 100; 100; 100; 100; 100; 100; 100; 100; 100; 100; 100; 100; 100; 100; 100; 100; 100; 100; 100; 100; 100; 100; 100; 100; 100; 100; 100; 100; 100; 100; 100; 100; 100; 100; 100; 100; 100; 100; 100; 100; 100; 100; 100; 100; 100; 100; 100; 100; 100; 100; 100; 100; 100; 100; 100];
  [100; 100; 100; 100; 100; 100; 100; 100; 100; 100; 100; 100; 100; 100; 100; 100; 100; 100; 100; 100; 100; 100; 100; 100; 100; 100; 100; 100; 100; 100; 100; 100; 100; 100; 100; 100; 100; 100; 100; 100; 100; 100; 100; 100; 100; 100; 100; 100; 100; 100; 100; 100; 100; 100; 100; 100; 100; 100; 100; 100];
  [100; 100; 100; 100; 100; 100; 100; 100; 100; 100; 100; 100; 100; 100; 100; 100; 100; 100; 100; 100; 100; 0; 100; 100; 100; 100; 100; 100; 100; 100; 100; 100; 100; 100; 100; 100; 100; 100; 100; 100; 100; 100; 100; 100; 100; 100; 100; 100; 100; 100; 100; 100; 100; 100; 100; 100; 100; 100; 100; 100];
  [100; 100; 100; 100; 100; 100; 100; 100; 100; 100; 100; 100; 100; 100; 100; 100; 100; 100; 100; 100; 100; 100; 100; 100; 100; 100; 100; 100; 100; 100; 100; 100; 0; 0; 100; 100; 100; 100; 100; 100; 100; 100; 100; 100; 100; 100; 100; 100; 100; 100; 0; 0; 100; 100; 100; 100; 100; 100; 100; 100];
  [100; 100; 100; 100; 100; 100; 100; 100; 100; 100; 100; 100; 100; 100; 100; 100; 100; 100; 100; 100; 100; 100; 100; 100; 100; 100; 100; 100; 100; 100; 100; 100; 100; 100; 100; 100; 100; 100; 100; 100; 100; 100; 100; 100; 100; 100; 100; 100; 100; 100; 100; 100; 100; 100; 100; 100; 100; 100; 100; 100];
  [100; 100; 100; 100; 100; 100; 100; 100; 100; 100; 100; 100; 100; 100; 100; 100; 100; 100; 100; 100; 100; 100; 100; 100; 100; 100; 100; 100; 100; 100; 100; 100; 100; 100; 100; 100; 100; 100; 100; 100; 100; 100; 100; 100; 100; 100; 0; 0; 100; 100; 100; 100; 100; 100; 100; 100; 100; 100; 100; 100];
  [100; 100; 100; 100; 100; 100; 100; 100; 100; 100; 100; 100; 100; 100; 100; 100; 100; 100; 100; 100; 100; 100; 100; 100; 100; 100; 100; 100; 100; 100; 100; 100; 100; 100; 100; 100; 100; 100; 100; 100; 100; 100; 100; 100; 100; 100; 100; 100; 100; 100; 100; 100; 100; 100; 135; 100; 100; 100; 100; 100];
  [100; 100; 100; 100; 100; 100; 100; 100; 100; 100; 100; 100; 100; 100; 100; 100; 100; 100; 100; 100; 100; 100; 100; 100; 0; 0; 100; 100; 100; 100; 100; 100; 100; 100; 100; 100; 100; 100; 100; 100; 100; 100; 100; 100; 100; 100; 0; 0; 100; 100; 100; 100; 100; 100; 100; 100; 100; 100; 100; 100];
  [100; 100; 100; 100; 100; 100; 100; 100; 100; 100; 100; 100; 100; 100; 100; 100; 100; 100; 100; 100; 100; 100; 100; 100; 100; 100; 100; 100; 100; 100; 100; 100; 100; 100; 100; 100; 100; 100; 100; 100; 100; 100; 100; 100; 100; 100; 100; 100; 100; 100; 100; 100; 100; 100; 100; 100; 100; 100; 100; 100];
  [100; 100; 100; 100; 100; 100; 100; 100; 100; 100; 100; 100; 100; 100; 100; 100; 100; 100; 100; 100; 100; 100; 100; 100; 100; 100; 100; 100; 100; 100; 100; 100; 100; 100; 100; 100; 100; 100; 100; 100; 100; 100; 100; 100; 100; 100; 100; 100; 100; 100; 100; 100; 100; 100; 100; 100; 100; 100; 100; 100];
  [100; 100; 100; 100; 100; 100; 100; 100; 100; 100; 100; 100; 100; 100; 100; 100; 100; 100; 100; 100; 100; 100; 100; 100; 100; 100; 100; 100; 100; 100; 100; 100; 100; 100; 100; 100; 100; 100; 100; 100; 100; 100; 100; 100; 100; 100; 100; 100; 100; 100; 100; 100; 100; 100; 0; 0; 100; 100; 100; 100];
  [100; 100; 100; 100; 100; 100; 100; 100; 100; 100; 100; 100; 100; 100; 100; 100; 100; 100; 100; 100; 100; 100; 100; 100; 100; 100; 100; 100; 100; 100; 100; 100; 100; 100; 100; 100; 100; 100; 100; 100; 100; 100; 100; 100; 100; 100; 100; 100; 100; 100; 100; 100; 100; 100; 100; 100; 100; 100; 100; 100];
  [100; 100; 100; 100; 100; 100; 100; 100; 100; 100; 100; 100; 100; 100; 100; 100; 100; 100; 100; 100; 100; 100; 100; 100; 100; 100; 100; 100; 100; 100; 100; 100; 100; 100; 100; 100; 100; 100; 100; 100; 100; 100; 100; 100; 100; 100; 100; 100; 100; 100; 100; 100; 100; 100; 0; 0; 100; 100; 100; 100];
  [100; 100; 100; 100; 100; 100; 100; 100; 100; 100; 100; 100; 100; 100; 100; 100; 100; 100; 100; 100; 100; 100; 100; 100; 100; 100; 100; 100; 100; 100; 100; 100; 100; 100; 100; 0; 100; 100; 100; 100; 100; 100; 100; 100; 100; 100; 100; 100; 100; 100; 100; 100; 100; 100; 100; 100; 100; 100; 100; 100];
  [100; 100; 100; 100; 100; 100; 100; 100; 100; 100; 100; 100; 100; 100; 100; 100; 100; 100; 100; 100; 100; 100; 100; 100; 100; 100; 100; 100; 100; 100; 100; 100; 100; 100; 100; 100; 100; 100; 100; 100; 100; 100; 100; 100; 100; 100; 100; 100; 100; 100; 100; 100; 100; 100; 100; 100; 100; 100; 100; 100];
  [100; 100; 100; 100; 100; 100; 100; 100; 100; 100; 100; 100; 100; 100; 100; 100; 100; 100; 100; 100; 100; 100; 100; 100; 100; 100; 100; 100; 100; 100; 100; 100; 100; 100; 100; 100; 100; 100; 100; 100; 100; 100; 100; 100; 100; 100; 100; 100; 100; 100; 100; 100; 100; 100; 100; 100; 100; 100; 100; 100];
  [100; 100; 100; 100; 100; 100; 100; 100; 100; 100; 100; 100; 100; 100; 100; 100; 0; 0; 100; 100; 100; 100; 100; 100; 100; 100; 100; 100; 100; 100; 100; 100; 100; 100; 100; 100; 100; 100; 100; 100; 100; 100; 100; 100; 100; 100; 100; 100; 100; 100; 100; 100; 100; 100; 100; 100; 100; 100; 100; 100];
  [100; 100; 100; 100; 100; 100; 100; 100; 100; 100; 100; 100; 100; 100; 100; 100; 100; 100; 100; 100; 100; 100; 100; 100; 100; 100; 100; 100; 100; 100; 100; 100; 100; 100; 100; 100; 100; 100; 100; 100; 100; 100; 100; 100; 100; 100; 0; 100; 100; 100; 100; 100; 100; 100; 100; 100; 100; 100; 100; 100];
  [100; 100; 100; 100; 100; 100; 100; 100; 100; 100; 100; 100; 100; 100; 100; 100; 100; 100; 100; 100; 100; 100; 100; 100; 100; 100; 100; 100; 100; 100; 100; 100; 100; 100; 100; 100; 100; 100; 100; 100; 100; 100; 100; 100; 100; 100; 100; 100; 100; 100; 100; 100; 100; 100; 100; 100; 100; 100; 100; 100];
  [100; 100; 100; 100; 100; 100; 100; 100; 100; 100; 100; 100; 100; 100; 100; 100; 100; 100; 100; 100; 100; 100; 100; 100; 100; 100; 100; 100; 100; 100; 100; 100; 100; 100; 100; 100; 100; 100; 100; 100; 100; 100; 100; 100; 100; 100; 100; 100; 100; 100; 100; 100; 100; 100; 100; 100; 100; 100; 100; 100];
  [100; 100; 100; 100; 100; 100; 100; 100; 100; 100; 100; 100; 100; 100; 100; 100; 100; 100; 100; 100; 100; 100; 100; 100; 100; 100; 100; 100; 100; 100; 100; 100; 100; 100; 100; 100; 100; 100; 100; 100; 100; 100; 100; 100; 100; 100; 100; 100; 100; 100; 100; 100; 100; 100; 100; 100; 100; 100; 100; 100];
  [100; 100; 100; 100; 100; 100; 100; 100; 100; 100; 100; 100; 100; 100; 100; 100; 100; 100; 100; 100; 100; 100; 100; 100; 100; 100; 100; 100; 100; 100; 100; 100; 100; 100; 100; 100; 100; 100; 100; 100; 100; 100; 100; 100; 100; 100; 100; 100; 100; 100; 100; 100; 100; 100; 100; 100; 100; 100; 100; 100];
  [100; 100; 100; 100; 100; 100; 100; 100; 100; 100; 100; 100; 100; 100; 100; 100; 100; 100; 100; 100; 100; 100; 100; 100; 100; 100; 100; 100; 100; 100; 100; 100; 100; 100; 100; 100; 100; 100; 100; 100; 100; 100; 100; 100; 0; 0; 100; 100; 100; 100; 100; 100; 100; 100; 100; 100; 100; 100; 100; 100];
  [100; 100; 100; 100; 100; 100; 100; 100; 100; 100; 100; 100; 100; 100; 100; 100; 100; 100; 100; 100; 100; 100; 100; 100; 100; 100; 100; 100; 100; 100; 100; 100; 100; 100; 100; 100; 100; 100; 100; 100; 100; 100; 100; 100; 100; 100; 100; 100; 100; 100; 100; 100; 100; 100; 100; 100; 100; 100; 100; 100];
  [100; 100; 100; 100; 100; 100; 100; 100; 100; 100; 100; 100; 100; 100; 100; 100; 100; 100; 100; 100; 100; 100; 100; 100; 100; 100; 100; 100; 100; 100; 100; 100; 100; 100; 100; 100; 100; 100; 100; 100; 100; 100; 100; 100; 100; 100; 100; 100; 100; 100; 100; 100; 100; 100; 100; 100; 100; 100; 100; 100];
  [100; 100; 100; 100; 100; 100; 100; 100; 100; 100; 100; 100; 100; 100; 100; 100; 100; 100; 100; 100; 100; 100; 100; 100; 100; 100; 100; 100; 100; 100; 100; 100; 100; 100; 100; 100; 100; 100; 100; 100; 100; 100; 100; 100; 100; 100; 100; 100; 100; 100; 100; 100; 100; 100; 100; 100; 100; 100; 100; 100];
  [100; 100; 100; 100; 100; 100; 100; 100; 100; 100; 100; 100; 100; 100; 100; 100; 100; 100; 100; 100; 100; 100; 100; 100; 100; 100; 100; 100; 100; 100; 100; 100; 100; 100; 100; 100; 100; 100; 100; 100; 100; 100; 100; 100; 100; 100; 100; 100; 100; 100; 100; 100; 100; 100; 100; 100; 100; 100; 100; 100];
  [100; 100; 100; 100; 100; 100; 100; 100; 100; 100; 100; 100; 100; 100; 100; 100; 100; 100; 100; 100; 100; 100; 100; 100; 100; 100; 100; 100; 100; 100; 100; 100; 100; 100; 100; 100; 100; 100; 100; 100; 100; 100; 100; 100; 100; 100; 100; 100; 100; 100; 100; 100; 100; 100; 100; 100; 100; 100; 100; 100];
  [100; 100; 100; 100; 100; 100; 100; 100; 100; 100; 100; 100; 100; 100; 100; 100; 100; 100; 100; 100; 100; 100; 100; 100; 100; 100; 100; 100; 100; 100; 100; 100; 100; 100; 100; 100; 100; 100; 100; 100; 100; 100; 100; 100; 100; 100; 100; 100; 100; 100; 100; 100; 100; 100; 100; 100; 100; 100; 100; 100];
  [100; 100; 100; 100; 100; 100; 100; 100; 100; 100; 100; 100; 100; 100; 100; 100; 100; 100; 100; 100; 100; 100; 100; 100; 100; 100; 100; 100; 100; 100; 100; 100; 0; 0; 100; 100; 100; 100; 100; 100; 100; 100; 100; 100; 0; 0; 100; 100; 100; 100; 100; 100; 100; 100; 100; 100; 100; 100; 100; 100];
  [100; 100; 100; 100; 100; 100; 100; 100; 100; 100; 100; 100; 100; 100; 100; 100; 100; 100; 100; 100; 100; 100; 100; 100; 100; 100; 100; 100; 100; 100; 100; 100; 100; 100; 100; 100; 100; 100; 100; 100; 100; 100; 100; 100; 100; 100; 100; 100; 100; 100; 100; 100; 100; 100; 100; 100; 100; 100; 100; 100];
  [100; 100; 100; 100; 100; 100; 100; 100; 100; 100; 100; 100; 100; 100; 100; 100; 100; 100; 100; 100; 100; 100; 100; 100; 100; 100; 100; 100; 100; 100; 100; 100; 100; 100; 100; 100; 100; 100; 100; 100; 100; 100; 100; 100; 100; 100; 100; 100; 100; 100; 100; 100; 100; 100; 100; 100; 100; 100; 100; 100];
  [100; 100; 100; 100; 100; 100; 100; 100; 100; 100; 100; 100; 100; 100; 100; 100; 100; 100; 100; 100; 100; 100; 0; 0; 100; 100; 100; 100; 100; 100; 100; 100; 100; 100; 100; 100; 100; 100; 100; 100; 100; 100; 100; 0; 100; 100; 0; 0; 100; 100; 100; 100; 100; 100; 100; 100; 100; 100; 100; 100];
  [100; 100; 100; 100; 100; 100; 100; 100; 100; 100; 100; 100; 100; 100; 100; 100; 100; 100; 100; 100; 100; 100; 100; 100; 100; 100; 100; 100; 100; 100; 100; 100; 100; 100; 100; 100; 100; 100; 100; 100; 100; 100; 100; 100; 100; 100; 100; 100; 100; 100; 100; 100; 100; 100; 100; 100; 100; 100; 100; 100];
  [100; 100; 100; 100; 100; 100; 100; 100; 100; 100; 100; 100; 100; 100; 100; 100; 100; 100; 100; 100; 100; 100; 100; 100; 100; 100; 100; 100; 100; 100; 100; 100; 100; 100; 100; 100; 100; 100; 0; 100; 100; 100; 100; 100; 100; 100; 100; 100; 100; 100; 100; 100; 100; 100; 100; 100; 100; 100; 100; 100];
  [100; 100; 100; 100; 100; 100; 100; 100; 100; 100; 100; 100; 100; 100; 100; 100; 100; 100; 100; 100; 100; 100; 100; 100; 100; 100; 100; 100; 100; 100; 100; 100; 100; 100; 100; 100; 100; 100; 100; 100; 100; 100; 100; 100; 100; 100; 100; 100; 100; 100; 100; 100; 100; 100; 100; 100; 100; 100; 100; 100];
  [100; 100; 100; 100; 100; 100; 100; 100; 100; 100; 100; 100; 100; 100; 100; 100; 100; 100; 100; 100; 100; 100; 100; 100; 100; 100; 100; 100; 100; 100; 100; 100; 100; 100; 100; 100; 100; 100; 100; 100; 100; 100; 100; 100; 100; 100; 100; 100; 100; 100; 100; 100; 100; 100; 100; 100; 100; 100; 100; 100];
  [100; 100; 100; 100; 100; 100; 100; 100; 0; 100; 100; 100; 100; 100; 100; 100; 0; 0; 100; 100; 100; 100; 100; 100; 100; 100; 100; 100; 100; 100; 100; 100; 100; 100; 100; 100; 100; 100; 100; 100; 100; 100; 100; 100; 100; 100; 100; 100; 100; 100; 100; 100; 100; 100; 100; 100; 100; 100; 100; 100];
  [100; 100; 100; 100; 100; 100; 100; 100; 100; 100; 100; 100; 100; 100; 100; 100; 100; 100; 100; 100; 100; 100; 100; 100; 100; 100; 100; 100; 100; 100; 100; 100; 100; 100; 100; 100; 100; 100; 100; 100; 100; 100; 100; 100; 100; 100; 100; 100; 100; 100; 100; 100; 100; 100; 100; 100; 100; 100; 100; 100];
  [100; 100; 100; 100; 100; 100; 100; 100; 100; 100; 100; 100; 100; 100; 100; 100; 100; 100; 100; 100; 100; 100; 100; 100; 100; 100; 100; 100; 100; 100; 100; 100; 100; 100; 100; 100; 100; 100; 100; 100; 100; 100; 100; 100; 100; 100; 100; 100; 100; 100; 100; 100; 100; 100; 100; 100; 100; 100; 100; 100];
  [100; 100; 100; 100; 100; 100; 100; 100; 100; 100; 100; 100; 100; 100; 100; 100; 100; 100; 100; 100; 100; 100; 100; 100; 100; 100; 100; 100; 100; 100; 100; 100; 100; 100; 100; 100; 100; 100; 100; 100; 100; 100; 100; 100; 100; 100; 100; 100; 100; 100; 100; 100; 100; 100; 100; 100; 100; 100; 100; 100];
  [100; 100; 100; 100; 100; 100; 100; 100; 100; 100; 100; 100; 100; 100; 100; 100; 100; 100; 100; 100; 100; 100; 100; 100; 100; 100; 100; 100; 100; 100; 100; 100; 100; 100; 100; 100; 100; 100; 100; 100; 100; 100; 100; 100; 100; 100; 100; 100; 100; 100; 100; 100; 100; 100; 100; 100; 100; 100; 100; 100];
  [100; 100; 100; 100; 100; 100; 100; 100; 100; 100; 100; 100; 100; 100; 100; 100; 100; 100; 100; 100; 100; 100; 100; 100; 100; 100; 100; 100; 100; 135; 135; 100; 135; 135; 135; 135; 135; 135; 135; 135; 100; 135; 100; 135; 100; 100; 100; 100; 100; 100; 100; 100; 100; 100; 0; 0; 100; 100; 100; 100];
  [100; 100; 100; 100; 100; 100; 100; 100; 100; 100; 100; 100; 100; 100; 100; 100; 100; 100; 100; 100; 100; 100; 100; 100; 100; 100; 100; 100; 100; 135; 135; 135; 135; 135; 135; 135; 135; 135; 135; 135; 135; 135; 135; 100; 100; 100; 100; 100; 100; 100; 100; 100; 100; 100; 100; 100; 100; 100; 100; 100];
  [135; 135; 135; 135; 135; 135; 135; 135; 135; 135; 135; 135; 135; 135; 135; 135; 135; 135; 135; 135; 135; 135; 135; 135; 135; 135; 135; 135; 135; 135; 135; 135; 135; 135; 135; 135; 135; 135; 135; 135; 135; 135; 135; 135; 135; 135; 135; 135; 135; 135; 135; 135; 135; 135; 135; 135; 135; 135; 135; 135];
  [135; 135; 135; 135; 135; 135; 135; 135; 135; 135; 135; 135; 135; 135; 135; 135; 135; 135; 135; 135; 135; 135; 135; 135; 135; 135; 135; 135; 135; 135; 135; 135; 135; 135; 135; 135; 135; 135; 135; 135; 135; 135; 135; 135; 135; 135; 135; 135; 135; 135; 135; 135; 135; 135; 135; 135; 135; 135; 135; 135];
  [135; 135; 135; 135; 135; 135; 135; 135; 135; 135; 135; 135; 135; 135; 135; 135; 135; 135; 135; 135; 135; 135; 135; 135; 135; 135; 135; 135; 135; 135; 135; 135; 135; 135; 135; 135; 135; 135; 135; 135; 135; 135; 135; 135; 135; 135; 135; 135; 135; 135; 135; 135; 135; 135; 135; 135; 135; 135; 135; 135];
  [135; 135; 135; 135; 135; 135; 135; 135; 135; 135; 135; 135; 135; 135; 135; 135; 135; 135; 135; 135; 135; 135; 135; 135; 135; 135; 135; 135; 135; 135; 135; 135; 135; 135; 135; 135; 135; 135; 135; 135; 135; 135; 135; 135; 135; 135; 135; 135; 135; 135; 135; 135; 135; 135; 135; 135; 135; 135; 135; 135];
  [135; 135; 135; 135; 135; 135; 135; 135; 135; 135; 135; 135; 135; 135; 135; 135; 135; 135; 135; 135; 135; 135; 135; 135; 135; 135; 135; 135; 135; 135; 135; 135; 135; 135; 135; 135; 135; 135; 135; 135; 135; 135; 135; 135; 135; 135; 135; 135; 135; 135; 135; 135; 135; 135; 135; 135; 135; 135; 135; 135];
  [135; 135; 135; 135; 135; 135; 135; 135; 135; 135; 135; 135; 135; 135; 135; 135; 135; 135; 135; 135; 135; 135; 135; 135; 135; 135; 0; 0; 135; 135; 135; 135; 135; 135; 135; 135; 135; 135; 135; 135; 135; 135; 135; 135; 135; 135; 135; 135; 135; 135; 135; 135; 135; 135; 135; 135; 135; 135; 135; 135]].

(** [string_hex_coord_dict] (detector.py l.232-233) *)
Definition string_hex_coord_dict : list (Z * (Z * Z)) := [
  (1, (-4, -1)); (2, (-4, 0)); (3, (-4, 1)); (4, (-4, 2)); (5, (-4, 3)); (6, (-4, 4)); (7, (-3, -2)); (8, (-3, -1)); (9, (-3, 0)); (10, (-3, 1)); (11, (-3, 2)); (12, (-3, 3)); (13, (-3, 4)); (14, (-2, -3)); (15, (-2, -2)); (16, (-2, -1)); (17, (-2, 0)); (18, (-2, 1)); (19, (-2, 2)); (20, (-2, 3)); (21, (-2, 4)); (22, (-1, -4)); (23, (-1, -3)); (24, (-1, -2)); (25, (-1, -1)); (26, (-1, 0)); (27, (-1, 1)); (28, (-1, 2)); (29, (-1, 3)); (30, (-1, 4)); (31, (0, -5)); (32, (0, -4)); (33, (0, -3)); (34, (0, -2)); (35, (0, -1)); (36, (0, 0)); (37, (0, 1)); (38, (0, 2)); (39, (0, 3)); (40, (0, 4)); (41, (1, -5)); (42, (1, -4)); (43, (1, -3)); (44, (1, -2)); (45, (1, -1)); (46, (1, 0)); (47, (1, 1)); (48, (1, 2)); (49, (1, 3)); (50, (1, 4)); (51, (2, -5)); (52, (2, -4)); (53, (2, -3)); (54, (2, -2)); (55, (2, -1)); (56, (2, 0)); (57, (2, 1)); (58, (2, 2)); (59, (2, 3)); (60, (3, -5)); (61, (3, -4)); (62, (3, -3)); (63, (3, -2)); (64, (3, -1)); (65, (3, 0)); (66, (3, 1)); (67, (3, 2)); (68, (4, -5)); (69, (4, -4)); (70, (4, -3)); (71, (4, -2)); (72, (4, -1)); (73, (4, 0)); (74, (4, 1)); (75, (5, -5)); (76, (5, -4)); (77, (5, -3)); (78, (5, -2))].

(** [hex_coord_string_dict] (detector.py l.234-236) *)
Definition hex_coord_string_dict : list ((Z * Z) * Z) := [
  ((-4, -1), 1); ((-4, 0), 2); ((-4, 1), 3); ((-4, 2), 4); ((-4, 3), 5); ((-4, 4), 6); ((-3, -2), 7); ((-3, -1), 8); ((-3, 0), 9); ((-3, 1), 10); ((-3, 2), 11); ((-3, 3), 12); ((-3, 4), 13); ((-2, -3), 14); ((-2, -2), 15); ((-2, -1), 16); ((-2, 0), 17); ((-2, 1), 18); ((-2, 2), 19); ((-2, 3), 20); ((-2, 4), 21); ((-1, -4), 22); ((-1, -3), 23); ((-1, -2), 24); ((-1, -1), 25); ((-1, 0), 26); ((-1, 1), 27); ((-1, 2), 28); ((-1, 3), 29); ((-1, 4), 30); ((0, -5), 31); ((0, -4), 32); ((0, -3), 33); ((0, -2), 34); ((0, -1), 35); ((0, 0), 36); ((0, 1), 37); ((0, 2), 38); ((0, 3), 39); ((0, 4), 40); ((1, -5), 41); ((1, -4), 42); ((1, -3), 43); ((1, -2), 44); ((1, -1), 45); ((1, 0), 46); ((1, 1), 47); ((1, 2), 48); ((1, 3), 49); ((1, 4), 50); ((2, -5), 51); ((2, -4), 52); ((2, -3), 53); ((2, -2), 54); ((2, -1), 55); ((2, 0), 56); ((2, 1), 57); ((2, 2), 58); ((2, 3), 59); ((3, -5), 60); ((3, -4), 61); ((3, -3), 62); ((3, -2), 63); ((3, -1), 64); ((3, 0), 65); ((3, 1), 66); ((3, 2), 67); ((4, -5), 68); ((4, -4), 69); ((4, -3), 70); ((4, -2), 71); ((4, -1), 72); ((4, 0), 73); ((4, 1), 74); ((5, -5), 75); ((5, -4), 76); ((5, -3), 77); ((5, -2), 78)].

(** [dom_noise_rate_dict] (dom_noise_rates.py l.7) in units of 1e-26 Hz, [None] for NaN; one
    string per line *)
Definition dom_noise_rate_lines : list (list ((Z * Z) * option Z)) := [
  [((1, 1), Some 55840600585937510000); ((1, 2), Some 68534997558593750000); ((1, 3), Some 57010699462890630000); ((1, 4), Some 68690301513671880000); ((1, 5), Some 70325799560546880000); ((1, 6), Some 61835198974609380000); ((1, 7), Some 70170397949218760000); ((1, 8), Some 55015698242187500000); ((1, 9), Some 62690698242187500000); ((1, 10), Some 73260699462890630000); ((1, 11), Some 77075201416015630000); ((1, 12), Some 56320697021484380000); ((1, 13), Some 50689999389648440000); ((1, 14), Some 65550402832031250000); ((1, 15), Some 62670599365234380000); ((1, 16), Some 68365399169921880000); ((1, 17), Some 71265399169921880000); ((1, 18), Some 67170697021484380000); ((1, 19), Some 59315502929687500000); ((1, 20), Some 61070697021484380000); ((1, 21), Some 62875000000000000000); ((1, 22), Some 64050897216796870000); ((1, 23), Some 52180902099609370000); ((1, 24), Some 58310699462890630000); ((1, 25), Some 69910601806640620000); ((1, 26), Some 58750799560546880000); ((1, 27), Some 71215600585937510000); ((1, 28), Some 56735900878906260000); ((1, 29), Some 68290197753906250000); ((1, 30), Some 51660101318359380000); ((1, 31), Some 68290802001953130000); ((1, 32), Some 70955200195312500000); ((1, 33), Some 55845202636718760000); ((1, 34), Some 48450100708007820000); ((1, 35), Some 61480798339843750000); ((1, 36), Some 64570001220703130000); ((1, 37), Some 71635699462890630000); ((1, 38), Some 60220397949218750000); ((1, 39), Some 59890002441406250000); ((1, 40), Some 54560400390625000000); ((1, 41), Some 49615899658203130000); ((1, 42), Some 53004998779296880000); ((1, 43), Some 59255297851562500000); ((1, 44), Some 58485797119140630000); ((1, 45), Some 72765197753906260000); ((1, 46), Some 120000004768371580); ((1, 47), Some 56705603027343760000); ((1, 48), Some 57375299072265630000); ((1, 49), Some 60220599365234380000); ((1, 50), Some 68745800781250010000); ((1, 51), Some 63100701904296880000); ((1, 52), Some 67425701904296880000); ((1, 53), Some 62105499267578130000); ((1, 54), Some 58545098876953130000); ((1, 55), Some 85675299072265630000); ((1, 56), Some 60710498046875010000); ((1, 57), Some 71185797119140630000); ((1, 58), Some 71840802001953130000); ((1, 59), Some 84685601806640630000); ((1, 60), Some 87300000000000000000)];
  [((2, 1), Some 59915399169921880000); ((2, 2), Some 58750299072265630000); ((2, 3), Some 60950799560546880000); ((2, 4), Some 55490002441406260000); ((2, 5), Some 60950097656250010000); ((2, 6), Some 57540301513671880000); ((2, 7), Some 63435400390625000000); ((2, 8), Some 56010797119140630000); ((2, 9), Some 62145697021484370000); ((2, 10), Some 59900402832031250000); ((2, 11), Some 53570202636718760000); ((2, 12), Some 57450402832031260000); ((2, 13), Some 63345898437500000000); ((2, 14), Some 55875097656250010000); ((2, 15), Some 52255700683593750000); ((2, 16), Some 56425598144531260000); ((2, 17), Some 59545800781250000000); ((2, 18), Some 66110400390625000000); ((2, 19), Some 48600601196289060000); ((2, 20), Some 54180700683593750000); ((2, 21), Some 59454998779296880000); ((2, 22), Some 56675000000000000000); ((2, 23), Some 65295001220703130000); ((2, 24), Some 50880200195312500000); ((2, 25), Some 52220599365234380000); ((2, 26), Some 56025500488281260000); ((2, 27), Some 61229998779296870000); ((2, 28), Some 57595697021484380000); ((2, 29), Some 48620199584960940000); ((2, 30), Some 52260101318359380000); ((2, 31), Some 60515197753906260000); ((2, 32), Some 51865899658203130000); ((2, 33), Some 60455297851562510000); ((2, 34), Some 50075000000000000000); ((2, 35), Some 48170300292968760000); ((2, 36), Some 52465301513671880000); ((2, 37), Some 54040301513671880000); ((2, 38), Some 53465002441406250000); ((2, 39), Some 50714999389648440000); ((2, 40), Some 52430401611328130000); ((2, 41), Some 41510299682617190000); ((2, 42), Some 46395901489257820000); ((2, 43), Some 43010598754882815000); ((2, 44), Some 43105499267578130000); ((2, 45), Some 54135400390625000000); ((2, 46), Some 46090499877929690000); ((2, 47), Some 46985800170898440000); ((2, 48), Some 50750399780273440000); ((2, 49), Some 48130499267578130000); ((2, 50), Some 50965100097656250000); ((2, 51), Some 54100201416015620000); ((2, 52), Some 48520700073242190000); ((2, 53), Some 51100900268554690000); ((2, 54), Some 46125601196289067000); ((2, 55), Some 50095700073242190000); ((2, 56), Some 46070498657226565000); ((2, 57), Some 48920901489257810000); ((2, 58), Some 57110101318359380000); ((2, 59), Some 45095901489257815000); ((2, 60), Some 44410299682617190000)];
  [((3, 1), Some 61695001220703130000); ((3, 2), Some 52345397949218750000); ((3, 3), Some 62604998779296880000); ((3, 4), Some 74560101318359380000); ((3, 5), Some 58845202636718750000); ((3, 6), Some 52409997558593750000); ((3, 7), Some 57540802001953130000); ((3, 8), Some 56870501708984380000); ((3, 9), Some 54740698242187500000); ((3, 10), Some 53450000000000000000); ((3, 11), Some 61785498046875000000); ((3, 12), Some 59265301513671880000); ((3, 13), Some 68330902099609380000); ((3, 14), Some 47530200195312500000); ((3, 15), Some 56370898437500000000); ((3, 16), Some 65395697021484370000); ((3, 17), Some 57995397949218750000); ((3, 18), Some 57140197753906260000); ((3, 19), Some 63425097656250000000); ((3, 20), Some 53325500488281260000); ((3, 21), Some 64705700683593760000); ((3, 22), Some 52075201416015630000); ((3, 23), Some 56225701904296880000); ((3, 24), Some 69925500488281250000); ((3, 25), Some 47520800781250005000); ((3, 26), Some 54205401611328130000); ((3, 27), Some 59670202636718750000); ((3, 28), Some 49330899047851570000); ((3, 29), Some 46829998779296880000); ((3, 30), Some 51860400390625000000); ((3, 31), Some 58675799560546880000); ((3, 32), Some 41640798950195317000); ((3, 33), Some 57225701904296880000); ((3, 34), Some 44180499267578126000); ((3, 35), Some 55230401611328130000); ((3, 36), Some 48090600585937510000); ((3, 37), Some 51345800781250000000); ((3, 38), Some 61670098876953130000); ((3, 39), Some 54595898437500000000); ((3, 40), Some 53195501708984380000); ((3, 41), Some 57040197753906250000); ((3, 42), Some 41145098876953126000); ((3, 43), Some 44080700683593754000); ((3, 44), Some 47730599975585940000); ((3, 45), Some 60640197753906260000); ((3, 46), Some 47580499267578127000); ((3, 47), Some 53785900878906260000); ((3, 48), Some 53945397949218760000); ((3, 49), Some 54880102539062510000); ((3, 50), Some 54410498046875000000); ((3, 51), Some 65175000000000000000); ((3, 52), Some 53315600585937510000); ((3, 53), Some 54355700683593750000); ((3, 54), Some 50040200805664070000); ((3, 55), Some 46600900268554690000); ((3, 56), Some 59065502929687500000); ((3, 57), Some 65465301513671880000); ((3, 58), Some 43345901489257816000); ((3, 59), Some 48400698852539070000); ((3, 60), Some 45300601196289063000)];
  [((4, 1), Some 57605499267578130000); ((4, 2), Some 56365301513671880000); ((4, 3), Some 54360302734375000000); ((4, 4), Some 63785101318359380000); ((4, 5), Some 54865197753906260000); ((4, 6), Some 53190002441406260000); ((4, 7), Some 51135198974609380000); ((4, 8), Some 55200299072265630000); ((4, 9), Some 50660501098632820000); ((4, 10), Some 49035198974609370000); ((4, 11), Some 49435699462890620000); ((4, 12), Some 51135000610351570000); ((4, 13), Some 64805798339843760000); ((4, 14), Some 52960302734375010000); ((4, 15), Some 52945697021484380000); ((4, 16), Some 50420800781250010000); ((4, 17), Some 57150402832031260000); ((4, 18), Some 57354998779296880000); ((4, 19), Some 52385699462890630000); ((4, 20), Some 49930899047851560000); ((4, 21), Some 45415100097656255000); ((4, 22), Some 51940698242187500000); ((4, 23), Some 47735000610351570000); ((4, 24), Some 54759997558593760000); ((4, 25), Some 49815600585937500000); ((4, 26), Some 61025701904296880000); ((4, 27), Some 47845700073242190000); ((4, 28), Some 57700799560546880000); ((4, 29), Some 48785000610351560000); ((4, 30), Some 51740399169921880000); ((4, 31), Some 47925201416015630000); ((4, 32), Some 46255398559570316000); ((4, 33), Some 50615600585937500000); ((4, 34), Some 47245901489257820000); ((4, 35), Some 48640200805664070000); ((4, 36), Some 46420300292968750000); ((4, 37), Some 52545697021484380000); ((4, 38), Some 44980398559570315000); ((4, 39), Some 47175601196289066000); ((4, 40), Some 49510598754882820000); ((4, 41), Some 48285900878906260000); ((4, 42), Some 47430599975585940000); ((4, 43), Some 53640301513671870000); ((4, 44), Some 45215100097656250000); ((4, 45), Some 52090399169921870000); ((4, 46), Some 47940600585937510000); ((4, 47), Some 48035198974609380000); ((4, 48), Some 55235601806640630000); ((4, 49), Some 54760101318359380000); ((4, 50), Some 41875100708007814000); ((4, 51), Some 51180300903320320000); ((4, 52), Some 47300799560546880000); ((4, 53), Some 47900900268554690000); ((4, 54), Some 46770498657226564000); ((4, 55), Some 47760699462890620000); ((4, 56), Some 46290600585937503000); ((4, 57), Some 48555899047851570000); ((4, 58), Some 47700698852539070000); ((4, 59), Some 44490200805664067000); ((4, 60), Some 48235699462890630000)];
  [((5, 1), Some 48900601196289060000); ((5, 2), Some 61365399169921880000); ((5, 3), Some 64085900878906260000); ((5, 4), Some 55965802001953130000); ((5, 5), Some 59470898437500000000); ((5, 6), Some 57065502929687500000); ((5, 7), Some 65045501708984380000); ((5, 8), Some 49360598754882820000); ((5, 9), Some 51010000610351570000); ((5, 10), Some 61755200195312510000); ((5, 11), Some 60055603027343760000); ((5, 12), Some 60140802001953130000); ((5, 13), Some 61540197753906250000); ((5, 14), Some 65829998779296880000); ((5, 15), Some 59370098876953120000); ((5, 16), Some 56330603027343750000); ((5, 17), Some 60960198974609380000); ((5, 18), Some 71155902099609380000); ((5, 19), Some 53720397949218750000); ((5, 20), Some 52100799560546870000); ((5, 23), Some 60765802001953130000); ((5, 24), Some 46790301513671877000); ((5, 25), Some 51875402832031250000); ((5, 26), Some 54250402832031250000); ((5, 27), Some 48135400390625000000); ((5, 28), Some 58915100097656250000); ((5, 29), Some 60225201416015630000); ((5, 30), Some 55330499267578130000); ((5, 31), Some 52665600585937500000); ((5, 32), Some 63175097656250000000); ((5, 33), Some 57610198974609380000); ((5, 34), Some 52845501708984380000); ((5, 35), Some 52065301513671880000); ((5, 36), Some 50325100708007810000); ((5, 37), Some 54955798339843760000); ((5, 38), Some 63030798339843750000); ((5, 39), Some 57035498046875010000); ((5, 40), Some 45380300903320317000); ((5, 41), Some 50890798950195320000); ((5, 42), Some 55665899658203130000); ((5, 43), Some 56075500488281250000); ((5, 44), Some 54055798339843750000); ((5, 45), Some 46855300903320317000); ((5, 46), Some 51315698242187510000); ((5, 47), Some 45915701293945314000); ((5, 48), Some 50635900878906250000); ((5, 49), Some 55660302734375010000); ((5, 50), Some 51330902099609380000); ((5, 51), Some 50355801391601560000); ((5, 52), Some 54020898437500000000); ((5, 53), Some 46280099487304690000); ((5, 54), Some 44935400390625000000); ((5, 55), Some 45265399169921875000); ((5, 56), Some 46100000000000000000); ((5, 57), Some 63110198974609380000); ((5, 58), Some 58350299072265630000); ((5, 59), Some 44415100097656254000); ((5, 60), Some 44335800170898440000)];
  [((6, 1), Some 70455499267578130000); ((6, 2), Some 67895501708984380000); ((6, 3), Some 54355603027343750000); ((6, 4), Some 58535699462890630000); ((6, 5), Some 69085302734375000000); ((6, 6), Some 53995800781250000000); ((6, 7), Some 58805401611328130000); ((6, 8), Some 55920300292968750000); ((6, 9), Some 55940399169921880000); ((6, 10), Some 61990899658203130000); ((6, 11), Some 56340002441406250000); ((6, 12), Some 67480902099609380000); ((6, 13), Some 57715002441406260000); ((6, 14), Some 61700201416015630000); ((6, 15), Some 62070300292968750000); ((6, 16), Some 48045300292968760000); ((6, 17), Some 60830700683593750000); ((6, 18), Some 61140399169921880000); ((6, 19), Some 57770300292968760000); ((6, 20), Some 59760797119140630000); ((6, 21), Some 58170898437500010000); ((6, 22), Some 54670898437500000000); ((6, 23), Some 55155297851562500000); ((6, 24), Some 58905700683593760000); ((6, 25), Some 52080700683593750000); ((6, 26), Some 61620098876953120000); ((6, 27), Some 56934997558593750000); ((6, 28), Some 54860400390625000000); ((6, 29), Some 50195001220703130000); ((6, 30), Some 60740899658203130000); ((6, 31), Some 50890701293945320000); ((6, 32), Some 47845300292968750000); ((6, 33), Some 53560198974609370000); ((6, 34), Some 54875799560546880000); ((6, 35), Some 50710299682617200000); ((6, 36), Some 52725299072265630000); ((6, 37), Some 57720001220703130000); ((6, 38), Some 50365301513671880000); ((6, 39), Some 53595800781250000000); ((6, 40), Some 50450601196289060000); ((6, 41), Some 48510198974609380000); ((6, 42), Some 52900201416015630000); ((6, 43), Some 53555700683593760000); ((6, 44), Some 50325299072265630000); ((6, 45), Some 53510797119140620000); ((6, 46), Some 49315600585937500000); ((6, 47), Some 52235498046875010000); ((6, 48), Some 55890899658203130000); ((6, 49), Some 48895401000976570000); ((6, 50), Some 51110000610351570000); ((6, 51), Some 52500000000000010000); ((6, 52), Some 52080499267578130000); ((6, 53), Some 52625299072265630000); ((6, 54), Some 56065301513671880000); ((6, 55), Some 49560400390625010000); ((6, 56), Some 45745098876953130000); ((6, 57), Some 51139999389648440000); ((6, 58), Some 51965698242187500000); ((6, 59), Some 53095599365234380000); ((6, 60), Some 49325201416015620000)];
  [((7, 1), Some 60515802001953130000); ((7, 2), Some 74595001220703130000); ((7, 3), Some 73200799560546880000); ((7, 4), Some 70505700683593760000); ((7, 5), Some 58395397949218750000); ((7, 6), Some 57765899658203130000); ((7, 7), Some 52855603027343750000); ((7, 8), Some 54550897216796880000); ((7, 9), Some 67885101318359380000); ((7, 10), Some 58655200195312510000); ((7, 11), Some 70460699462890620000); ((7, 12), Some 50280099487304690000); ((7, 13), Some 64115698242187500000); ((7, 14), Some 57045397949218760000); ((7, 15), Some 69190698242187500000); ((7, 16), Some 51440399169921880000); ((7, 17), Some 60445001220703130000); ((7, 18), Some 48925201416015630000); ((7, 19), Some 72120001220703130000); ((7, 20), Some 65290100097656260000); ((7, 21), Some 52215002441406260000); ((7, 22), Some 75115301513671880000); ((7, 23), Some 67455798339843750000); ((7, 24), Some 70095800781250000000); ((7, 25), Some 63160797119140630000); ((7, 26), Some 63235400390625010000); ((7, 27), Some 66610302734375000000); ((7, 28), Some 64525799560546880000); ((7, 29), Some 66750000000000010000); ((7, 30), Some 73175402832031250000); ((7, 31), Some 54875500488281260000); ((7, 32), Some 69875500488281250000); ((7, 33), Some 69395800781250000000); ((7, 34), Some 36445800781250004000); ((7, 43), Some 48375601196289070000); ((7, 44), Some 120000004768371580); ((7, 47), Some 74010797119140630000); ((7, 48), Some 57680297851562500000); ((7, 49), Some 56195202636718750000); ((7, 50), Some 74410198974609380000); ((7, 51), Some 59940802001953130000); ((7, 52), Some 66335498046875010000); ((7, 53), Some 66450097656250010000); ((7, 54), Some 58540002441406250000); ((7, 55), Some 67480798339843760000); ((7, 56), Some 68935302734375010000); ((7, 57), Some 71695300292968750000); ((7, 58), Some 79720300292968750000); ((7, 59), Some 70790600585937510000); ((7, 60), Some 72015002441406250000)];
  [((8, 1), Some 55775799560546880000); ((8, 2), Some 62975201416015630000); ((8, 3), Some 73120800781250010000); ((8, 4), Some 54145098876953120000); ((8, 5), Some 59975000000000010000); ((8, 6), Some 54670001220703130000); ((8, 7), Some 47050299072265630000); ((8, 8), Some 58450500488281250000); ((8, 9), Some 58750299072265630000); ((8, 10), Some 49570599365234380000); ((8, 11), Some 57800000000000000000); ((8, 12), Some 55655902099609380000); ((8, 13), Some 52480798339843750000); ((8, 14), Some 62245599365234380000); ((8, 15), Some 69115301513671880000); ((8, 16), Some 50570800781250010000); ((8, 17), Some 57235400390625000000); ((8, 18), Some 55305200195312500000); ((8, 19), Some 61495202636718750000); ((8, 20), Some 68475097656250000000); ((8, 21), Some 54620397949218750000); ((8, 22), Some 52725299072265630000); ((8, 23), Some 52400701904296870000); ((8, 24), Some 68100402832031250000); ((8, 25), Some 51235699462890630000); ((8, 26), Some 59710900878906260000); ((8, 27), Some 59945599365234380000); ((8, 28), Some 55175097656250010000); ((8, 29), Some 51195901489257810000); ((8, 30), Some 57000500488281260000); ((8, 31), Some 51740399169921880000); ((8, 32), Some 62040197753906260000); ((8, 33), Some 60540301513671880000); ((8, 34), Some 63405200195312500000); ((8, 35), Some 56379998779296880000); ((8, 36), Some 58890197753906250000); ((8, 37), Some 43530300903320316000); ((8, 38), Some 56685797119140630000); ((8, 39), Some 47310900878906250000); ((8, 40), Some 52690100097656250000); ((8, 41), Some 49605099487304690000); ((8, 42), Some 74100598144531250000); ((8, 43), Some 53800000000000010000); ((8, 44), Some 56105700683593760000); ((8, 45), Some 50895300292968750000); ((8, 46), Some 48185400390625000000); ((8, 47), Some 57465301513671870000); ((8, 48), Some 47500799560546880000); ((8, 49), Some 54525897216796880000); ((8, 50), Some 74370300292968750000); ((8, 51), Some 56415002441406250000); ((8, 52), Some 57770397949218760000); ((8, 53), Some 43770700073242190000); ((8, 54), Some 47830398559570310000); ((8, 55), Some 57490698242187500000); ((8, 56), Some 67810601806640630000); ((8, 57), Some 50110101318359380000); ((8, 58), Some 51590399169921880000)];
  [((9, 1), Some 53525701904296870000); ((9, 2), Some 61345397949218750000); ((9, 3), Some 62820300292968750000); ((9, 4), Some 54490100097656250000); ((9, 5), Some 56870898437500000000); ((9, 6), Some 61380603027343750000); ((9, 7), Some 58409997558593750000); ((9, 8), Some 52400097656250000000); ((9, 9), Some 68100201416015630000); ((9, 10), Some 58615698242187500000); ((9, 11), Some 58930603027343760000); ((9, 12), Some 52350201416015630000); ((9, 13), Some 75810601806640630000); ((9, 14), Some 53090100097656250000); ((9, 17), Some 52765399169921880000); ((9, 18), Some 51815002441406260000); ((9, 19), Some 62384997558593760000); ((9, 20), Some 53365502929687500000); ((9, 21), Some 66915600585937500000); ((9, 22), Some 52025000000000000000); ((9, 23), Some 59180200195312500000); ((9, 24), Some 61750799560546880000); ((9, 25), Some 59625701904296880000); ((9, 26), Some 54210498046875010000); ((9, 27), Some 57280798339843750000); ((9, 28), Some 58270898437500000000); ((9, 29), Some 46579998779296880000); ((9, 30), Some 51520697021484380000); ((9, 31), Some 58770001220703130000); ((9, 32), Some 57640502929687500000); ((9, 33), Some 63065197753906260000); ((9, 34), Some 55825500488281250000); ((9, 35), Some 57340197753906250000); ((9, 36), Some 48855099487304690000); ((9, 37), Some 53125701904296880000); ((9, 38), Some 54020300292968750000); ((9, 39), Some 53880902099609370000); ((9, 40), Some 67790197753906250000); ((9, 41), Some 59470202636718760000); ((9, 42), Some 46580700683593750000); ((9, 43), Some 47210101318359380000); ((9, 44), Some 38780300903320314000); ((9, 45), Some 49020498657226570000); ((9, 46), Some 51460400390625000000); ((9, 47), Some 55605401611328120000); ((9, 48), Some 53125000000000000000); ((9, 49), Some 52045202636718750000); ((9, 50), Some 57040100097656250000); ((9, 51), Some 59280297851562500000); ((9, 52), Some 55110498046875000000); ((9, 53), Some 54690698242187510000); ((9, 54), Some 62225097656250010000); ((9, 55), Some 49985101318359380000); ((9, 56), Some 49545901489257820000); ((9, 57), Some 80610699462890630000); ((9, 58), Some 66720697021484380000); ((9, 59), Some 69615502929687500000); ((9, 60), Some 69515600585937510000)];
  [((10, 1), Some 47185900878906253000); ((10, 2), Some 51135900878906250000); ((10, 3), Some 56590802001953120000); ((10, 4), Some 48430398559570310000); ((10, 5), Some 51905902099609370000); ((10, 6), Some 63505798339843750000); ((10, 7), Some 59185198974609370000); ((10, 8), Some 49205899047851560000); ((10, 9), Some 55700701904296880000); ((10, 10), Some 45985101318359376000); ((10, 11), Some 54995800781250000000); ((10, 12), Some 66705902099609380000); ((10, 13), Some 70360498046875000000); ((10, 14), Some 58275097656250010000); ((10, 15), Some 56430297851562500000); ((10, 16), Some 48470599365234380000); ((10, 17), Some 60055200195312510000); ((10, 18), Some 59355499267578130000); ((10, 19), Some 53640399169921870000); ((10, 20), Some 61200598144531260000); ((10, 21), Some 69325299072265630000); ((10, 22), Some 53230902099609380000); ((10, 23), Some 56980700683593750000); ((10, 24), Some 57015698242187500000); ((10, 25), Some 51525500488281260000); ((10, 26), Some 56590197753906250000); ((10, 27), Some 52785302734375000000); ((10, 28), Some 54705499267578130000); ((10, 29), Some 62325402832031250000); ((10, 30), Some 62384997558593760000); ((10, 31), Some 52704998779296880000); ((10, 32), Some 58125097656250010000); ((10, 33), Some 53425299072265630000); ((10, 34), Some 48680499267578120000); ((10, 35), Some 51035000610351560000); ((10, 36), Some 48835400390625000000); ((10, 37), Some 48330801391601570000); ((10, 38), Some 47990499877929690000); ((10, 39), Some 62830102539062500000); ((10, 40), Some 41860400390625004000); ((10, 41), Some 52829998779296880000); ((10, 42), Some 59625402832031250000); ((10, 43), Some 50440301513671880000); ((10, 44), Some 41540600585937500000); ((10, 45), Some 42785101318359380000); ((10, 46), Some 50675601196289070000); ((10, 47), Some 49660598754882820000); ((10, 48), Some 54375000000000000000); ((10, 49), Some 49575698852539060000); ((10, 50), Some 46320498657226570000); ((10, 51), Some 63680297851562500000); ((10, 52), Some 50605099487304690000); ((10, 53), Some 46055599975585940000); ((10, 54), Some 38980700683593750000); ((10, 55), Some 57465197753906250000); ((10, 56), Some 53635101318359380000); ((10, 57), Some 48310299682617200000); ((10, 58), Some 51790301513671880000); ((10, 59), Some 47965701293945320000); ((10, 60), Some 53340899658203120000)];
  [((11, 3), Some 55370898437500000000); ((11, 4), Some 66065399169921880000); ((11, 5), Some 65365197753906250000); ((11, 6), Some 64835198974609370000); ((11, 7), Some 57054998779296880000); ((11, 8), Some 55025897216796870000); ((11, 9), Some 50820199584960940000); ((11, 10), Some 52715698242187510000); ((11, 11), Some 51720098876953130000); ((11, 12), Some 48610198974609370000); ((11, 13), Some 51995397949218760000); ((11, 14), Some 47795498657226560000); ((11, 15), Some 53020898437500000000); ((11, 16), Some 53030902099609370000); ((11, 17), Some 56295697021484380000); ((11, 18), Some 56645599365234380000); ((11, 19), Some 51705603027343750000); ((11, 20), Some 52535601806640630000); ((11, 21), Some 59310797119140630000); ((11, 22), Some 60045397949218750000); ((11, 23), Some 52225299072265630000); ((11, 24), Some 64015100097656250000); ((11, 25), Some 55260302734375000000); ((11, 26), Some 63420898437500000000); ((11, 27), Some 60965100097656260000); ((11, 28), Some 72010400390625010000); ((11, 29), Some 52980297851562510000); ((11, 30), Some 51150201416015620000); ((11, 31), Some 48790200805664070000); ((11, 32), Some 64795501708984380000); ((11, 33), Some 55080297851562500000); ((11, 34), Some 45795599365234380000); ((11, 35), Some 50155499267578130000); ((11, 36), Some 59635797119140630000); ((11, 37), Some 60345397949218750000); ((11, 38), Some 59815698242187500000); ((11, 39), Some 64410400390625000000); ((11, 40), Some 56050000000000010000); ((11, 41), Some 48835101318359380000); ((11, 42), Some 51300000000000000000); ((11, 43), Some 48410198974609380000); ((11, 44), Some 48300900268554690000); ((11, 45), Some 49015899658203130000); ((11, 46), Some 47870098876953130000); ((11, 47), Some 52900299072265630000); ((11, 48), Some 46675399780273440000); ((11, 49), Some 44910299682617190000); ((11, 50), Some 53580700683593760000); ((11, 51), Some 46525500488281250000); ((11, 52), Some 52825897216796880000); ((11, 53), Some 46810501098632813000); ((11, 54), Some 55585400390625000000); ((11, 55), Some 48390701293945320000); ((11, 56), Some 44325601196289064000); ((11, 57), Some 46950399780273440000); ((11, 58), Some 43430300903320314000); ((11, 59), Some 49020401000976570000); ((11, 60), Some 47590301513671880000)];
  [((12, 1), Some 71229998779296880000); ((12, 2), Some 52175500488281250000); ((12, 3), Some 55600402832031260000); ((12, 4), Some 65905603027343750000); ((12, 5), Some 65845697021484380000); ((12, 6), Some 44840100097656254000); ((12, 7), Some 60635198974609380000); ((12, 8), Some 50570098876953130000); ((12, 9), Some 62440502929687500000); ((12, 10), Some 49245001220703120000); ((12, 11), Some 53995001220703130000); ((12, 12), Some 58655401611328130000); ((12, 13), Some 50825201416015630000); ((12, 14), Some 58675500488281250000); ((12, 15), Some 59270800781250000000); ((12, 16), Some 55570697021484380000); ((12, 17), Some 46885400390625000000); ((12, 18), Some 55465197753906250000); ((12, 19), Some 56215301513671880000); ((12, 20), Some 54650201416015630000); ((12, 21), Some 46445498657226566000); ((12, 22), Some 56960302734375000000); ((12, 23), Some 52675402832031260000); ((12, 24), Some 58335601806640630000); ((12, 25), Some 61029998779296880000); ((12, 26), Some 59025500488281250000); ((12, 27), Some 57890502929687500000); ((12, 28), Some 55235601806640630000); ((12, 29), Some 49825000000000010000); ((12, 30), Some 55425299072265630000); ((12, 31), Some 47550201416015630000); ((12, 32), Some 47565200805664065000); ((12, 33), Some 45980801391601566000); ((12, 34), Some 62655499267578130000); ((12, 35), Some 51715502929687500000); ((12, 36), Some 50365600585937510000); ((12, 37), Some 45265200805664067000); ((12, 38), Some 46600100708007814000); ((12, 39), Some 58585498046875010000); ((12, 40), Some 47720199584960940000); ((12, 41), Some 53470697021484380000); ((12, 42), Some 50925900268554690000); ((12, 43), Some 56495697021484380000); ((12, 44), Some 41845498657226565000); ((12, 45), Some 53650500488281260000); ((12, 46), Some 53590002441406250000); ((12, 47), Some 52945697021484380000); ((12, 48), Some 43965899658203130000); ((12, 49), Some 49765200805664070000); ((12, 50), Some 55910797119140620000); ((12, 51), Some 46785400390625004000); ((12, 52), Some 51115301513671870000); ((12, 53), Some 55045300292968750000); ((12, 54), Some 51360302734375000000); ((12, 55), Some 56840100097656260000); ((12, 56), Some 51730700683593760000); ((12, 57), Some 51775500488281260000); ((12, 58), Some 47260699462890630000); ((12, 59), Some 53985400390625000000); ((12, 60), Some 50690301513671870000)];
  [((13, 1), Some 58755499267578130000); ((13, 2), Some 61150097656250000000); ((13, 3), Some 60895397949218750000); ((13, 4), Some 56965002441406250000); ((13, 5), Some 76690502929687500000); ((13, 6), Some 58690399169921880000); ((13, 7), Some 59115899658203120000); ((13, 8), Some 52845001220703130000); ((13, 9), Some 56255401611328130000); ((13, 10), Some 61965600585937500000); ((13, 11), Some 66980499267578130000); ((13, 12), Some 64555102539062500000); ((13, 13), Some 68600701904296880000); ((13, 14), Some 57550097656250010000); ((13, 15), Some 53125201416015620000); ((13, 16), Some 55715802001953130000); ((13, 17), Some 51810101318359380000); ((13, 18), Some 56259997558593750000); ((13, 19), Some 55130102539062500000); ((13, 20), Some 57575097656250010000); ((13, 21), Some 54635797119140620000); ((13, 22), Some 52029998779296880000); ((13, 23), Some 62890197753906260000); ((13, 24), Some 59340399169921880000); ((13, 25), Some 50985101318359380000); ((13, 26), Some 54970397949218750000); ((13, 27), Some 62345300292968750000); ((13, 28), Some 50675100708007820000); ((13, 29), Some 51050299072265630000); ((13, 30), Some 56535601806640630000); ((13, 31), Some 54675097656250000000); ((13, 32), Some 47200299072265626000); ((13, 33), Some 50835598754882820000); ((13, 34), Some 53085601806640630000); ((13, 35), Some 59250598144531260000); ((13, 36), Some 54315399169921880000); ((13, 37), Some 50985800170898450000); ((13, 38), Some 56140802001953130000); ((13, 39), Some 53930902099609380000); ((13, 40), Some 57475799560546880000); ((13, 41), Some 50665399169921870000); ((13, 42), Some 54145001220703130000); ((13, 43), Some 51775799560546880000); ((13, 44), Some 53720800781250000000); ((13, 45), Some 52125897216796880000); ((13, 46), Some 58210900878906250000); ((13, 47), Some 59975097656250010000); ((13, 48), Some 63830499267578130000); ((13, 49), Some 59535101318359380000); ((13, 50), Some 53325299072265630000); ((13, 51), Some 56695300292968750000); ((13, 52), Some 51945800781250000000); ((13, 53), Some 50220599365234380000); ((13, 54), Some 52030499267578130000); ((13, 55), Some 40920901489257814000); ((13, 56), Some 46505899047851565000); ((13, 57), Some 52660498046875010000); ((13, 58), Some 45605599975585940000); ((13, 59), Some 50240600585937500000); ((13, 60), Some 45825201416015627000)];
  [((14, 1), Some 51340899658203130000); ((14, 2), Some 67370300292968760000); ((14, 3), Some 69295202636718750000); ((14, 4), Some 59190399169921880000); ((14, 5), Some 48705099487304690000); ((14, 6), Some 64800701904296870000); ((14, 7), Some 57290698242187500000); ((14, 8), Some 75080603027343750000); ((14, 9), Some 61360601806640630000); ((14, 10), Some 71700097656250010000); ((14, 11), Some 54430401611328130000); ((14, 12), Some 63725598144531250000); ((14, 13), Some 57054998779296880000); ((14, 14), Some 74135302734375010000); ((14, 15), Some 65355102539062500000); ((14, 16), Some 49995599365234380000); ((14, 17), Some 65065197753906250000); ((14, 18), Some 59760198974609370000); ((14, 19), Some 60625402832031250000); ((14, 20), Some 58225000000000000000); ((14, 21), Some 63915100097656260000); ((14, 22), Some 63210101318359380000); ((14, 23), Some 62605499267578130000); ((14, 24), Some 66385302734375010000); ((14, 25), Some 84430700683593760000); ((14, 26), Some 50600601196289060000); ((14, 27), Some 63040002441406250000); ((14, 28), Some 66930102539062500000); ((14, 29), Some 65915100097656250000); ((14, 30), Some 52590100097656250000); ((14, 31), Some 51345300292968750000); ((14, 32), Some 61570098876953130000); ((14, 33), Some 61079998779296870000); ((14, 34), Some 57415600585937510000); ((14, 35), Some 68435498046875010000); ((14, 36), Some 49530499267578130000); ((14, 37), Some 50660400390625000000); ((14, 38), Some 54950097656250000000); ((14, 39), Some 60945501708984380000); ((14, 40), Some 54090100097656250000); ((14, 41), Some 69485400390625000000); ((14, 42), Some 58370800781250000000); ((14, 43), Some 48429998779296880000); ((14, 44), Some 55785400390625010000); ((14, 45), Some 66210101318359380000); ((14, 46), Some 59675201416015630000); ((14, 47), Some 46875399780273440000); ((14, 48), Some 48250601196289070000); ((14, 49), Some 74130401611328130000); ((14, 50), Some 59350598144531250000); ((14, 51), Some 74195898437500000000); ((14, 52), Some 74120098876953130000); ((14, 53), Some 70115698242187500000); ((14, 54), Some 58485101318359380000); ((14, 55), Some 84515100097656260000); ((14, 56), Some 67305102539062510000); ((14, 57), Some 67550897216796880000); ((14, 58), Some 76520300292968760000); ((14, 59), Some 73700201416015620000); ((14, 60), Some 79015399169921880000)];
  [((15, 1), Some 65720397949218750000); ((15, 2), Some 71070898437500000000); ((15, 3), Some 61505798339843750000); ((15, 4), Some 59080297851562510000); ((15, 5), Some 60405297851562500000); ((15, 6), Some 63350201416015630000); ((15, 7), Some 65565197753906260000); ((15, 8), Some 50790200805664070000); ((15, 9), Some 69760400390625010000); ((15, 10), Some 52830603027343750000); ((15, 11), Some 69000799560546880000); ((15, 12), Some 66205499267578130000); ((15, 13), Some 58550097656250010000); ((15, 14), Some 53700799560546880000); ((15, 15), Some 59795800781250000000); ((15, 16), Some 59320300292968760000); ((15, 17), Some 68040100097656250000); ((15, 18), Some 52665002441406260000); ((15, 19), Some 51150799560546880000); ((15, 20), Some 70305798339843760000); ((15, 21), Some 54780102539062500000); ((15, 22), Some 59810699462890630000); ((15, 23), Some 66595098876953130000); ((15, 24), Some 63050299072265630000); ((15, 25), Some 56790301513671880000); ((15, 26), Some 60360302734375000000); ((15, 27), Some 68760400390625010000); ((15, 28), Some 55395501708984380000); ((15, 29), Some 53165100097656250000); ((15, 30), Some 60580603027343750000); ((15, 31), Some 53290600585937500000); ((15, 32), Some 53150799560546880000); ((15, 33), Some 56635601806640630000); ((15, 34), Some 60535601806640630000); ((15, 35), Some 52650500488281260000); ((15, 36), Some 59930200195312510000); ((15, 37), Some 53935797119140620000); ((15, 38), Some 48820800781250000000); ((15, 39), Some 58870599365234380000); ((15, 40), Some 58434997558593760000); ((15, 41), Some 49865499877929690000); ((15, 42), Some 57465197753906250000); ((15, 43), Some 62925097656250010000); ((15, 44), Some 51530297851562500000); ((15, 45), Some 57725598144531250000); ((15, 46), Some 49995599365234380000); ((15, 47), Some 49430300903320310000); ((15, 48), Some 55585900878906250000); ((15, 49), Some 50715499877929690000); ((15, 50), Some 56485101318359380000); ((15, 51), Some 56385498046875000000); ((15, 52), Some 54950500488281250000); ((15, 53), Some 54275201416015630000); ((15, 54), Some 73420599365234380000); ((15, 55), Some 53910601806640630000); ((15, 56), Some 58845501708984380000); ((15, 57), Some 56115502929687500000); ((15, 58), Some 45650201416015630000); ((15, 59), Some 50650500488281260000); ((15, 60), Some 54400799560546880000)];
  [((16, 1), Some 65745397949218750000); ((16, 2), Some 56059997558593760000); ((16, 3), Some 60090698242187500000); ((16, 4), Some 52175897216796880000); ((16, 5), Some 65215802001953130000); ((16, 6), Some 53720300292968750000); ((16, 7), Some 61350799560546880000); ((16, 8), Some 54435101318359380000); ((16, 9), Some 65100097656250000000); ((16, 10), Some 67975201416015630000); ((16, 11), Some 54865802001953130000); ((16, 12), Some 73060699462890630000); ((16, 13), Some 56550701904296880000); ((16, 14), Some 51940600585937500000); ((16, 15), Some 58275299072265630000); ((16, 16), Some 52695697021484370000); ((16, 17), Some 63605102539062510000); ((16, 18), Some 66795501708984380000); ((16, 19), Some 53865197753906260000); ((16, 20), Some 56335797119140620000); ((16, 21), Some 45095901489257815000); ((16, 22), Some 53885198974609380000); ((16, 23), Some 47180700683593754000); ((16, 24), Some 55080102539062500000); ((16, 25), Some 57050598144531250000); ((16, 26), Some 48715600585937500000); ((16, 27), Some 51445599365234370000); ((16, 28), Some 47825299072265630000); ((16, 29), Some 52035900878906250000); ((16, 30), Some 54170397949218750000); ((16, 31), Some 54505401611328130000); ((16, 32), Some 48540600585937510000); ((16, 33), Some 57070599365234380000); ((16, 34), Some 51385101318359380000); ((16, 35), Some 56275097656250000000); ((16, 36), Some 53695202636718760000); ((16, 37), Some 48980899047851570000); ((16, 38), Some 47700698852539070000); ((16, 39), Some 52170001220703130000); ((16, 40), Some 52905200195312500000); ((16, 41), Some 47025100708007814000); ((16, 42), Some 52495098876953130000); ((16, 43), Some 49735299682617190000); ((16, 44), Some 45980599975585940000); ((16, 45), Some 46735000610351567000); ((16, 46), Some 56079998779296880000); ((16, 47), Some 54290899658203130000); ((16, 48), Some 48789999389648440000); ((16, 49), Some 55925097656250000000); ((16, 50), Some 44265301513671880000); ((16, 51), Some 47910299682617190000); ((16, 52), Some 47995401000976560000); ((16, 53), Some 52225799560546870000); ((16, 54), Some 50075900268554690000); ((16, 55), Some 45910501098632814000); ((16, 56), Some 43500000000000000000); ((16, 57), Some 44235101318359377000); ((16, 58), Some 40975799560546875000); ((16, 59), Some 57075201416015620000); ((16, 60), Some 54165197753906260000)];
  [((17, 1), Some 60000097656250000000); ((17, 2), Some 69940502929687500000); ((17, 3), Some 64109997558593760000); ((17, 4), Some 53780200195312500000); ((17, 5), Some 55470300292968750000); ((17, 6), Some 64870098876953120000); ((17, 7), Some 60090600585937510000); ((17, 8), Some 62920898437500000000); ((17, 9), Some 56290197753906260000); ((17, 10), Some 59820202636718750000); ((17, 11), Some 56490600585937500000); ((17, 12), Some 56940399169921880000); ((17, 13), Some 59460797119140630000); ((17, 14), Some 55800500488281250000); ((17, 15), Some 65290399169921880000); ((17, 16), Some 57130102539062510000); ((17, 17), Some 56220397949218760000); ((17, 18), Some 53100897216796880000); ((17, 19), Some 56390197753906260000); ((17, 20), Some 55520397949218760000); ((17, 21), Some 53380297851562500000); ((17, 22), Some 57809997558593750000); ((17, 23), Some 52280401611328130000); ((17, 24), Some 70820898437500000000); ((17, 25), Some 57060601806640630000); ((17, 26), Some 54150299072265630000); ((17, 27), Some 48650900268554690000); ((17, 28), Some 48570300292968750000); ((17, 29), Some 50290600585937500000); ((17, 30), Some 61800598144531260000); ((17, 31), Some 58840802001953130000); ((17, 32), Some 52340802001953130000); ((17, 33), Some 53970800781250010000); ((17, 34), Some 54060498046875010000); ((17, 35), Some 48240899658203130000); ((17, 36), Some 52310900878906250000); ((17, 37), Some 50520401000976560000); ((17, 38), Some 51890600585937510000); ((17, 39), Some 51820397949218760000); ((17, 40), Some 54430700683593760000); ((17, 41), Some 49600900268554690000); ((17, 42), Some 54020098876953120000); ((17, 43), Some 44990701293945313000); ((17, 44), Some 52870202636718760000); ((17, 45), Some 53560198974609370000); ((17, 46), Some 57130200195312510000); ((17, 47), Some 56730798339843750000); ((17, 48), Some 50150201416015620000); ((17, 49), Some 47400698852539064000); ((17, 50), Some 50240701293945310000); ((17, 51), Some 58330200195312500000); ((17, 52), Some 51550097656250000000); ((17, 53), Some 55400897216796880000); ((17, 54), Some 47210299682617190000); ((17, 55), Some 52910797119140630000); ((17, 56), Some 54620098876953130000); ((17, 57), Some 51600097656250000000); ((17, 58), Some 57640301513671880000); ((17, 59), Some 44730300903320316000); ((17, 60), Some 44190899658203125000)];
  [((18, 1), Some 56760699462890630000); ((18, 2), Some 65470202636718750000); ((18, 3), Some 56500701904296880000); ((18, 4), Some 69275402832031260000); ((18, 5), Some 58140600585937500000); ((18, 6), Some 61520397949218750000); ((18, 7), Some 67040301513671870000); ((18, 8), Some 63300097656250000000); ((18, 9), Some 60235797119140630000); ((18, 10), Some 68485797119140630000); ((18, 11), Some 57890698242187500000); ((18, 12), Some 46560198974609380000); ((18, 13), Some 62395300292968750000); ((18, 14), Some 60270599365234380000); ((18, 15), Some 57525402832031250000); ((18, 16), Some 53685198974609370000); ((18, 17), Some 49640301513671880000); ((18, 18), Some 53255102539062500000); ((18, 19), Some 45300601196289063000); ((18, 20), Some 51690502929687500000); ((18, 21), Some 57734997558593760000); ((18, 22), Some 56065600585937500000); ((18, 23), Some 56365100097656250000); ((18, 24), Some 62004998779296880000); ((18, 25), Some 52855499267578130000); ((18, 26), Some 58690502929687510000); ((18, 27), Some 58915899658203130000); ((18, 28), Some 46230899047851565000); ((18, 29), Some 58235797119140630000); ((18, 30), Some 54359997558593760000); ((18, 31), Some 57440899658203130000); ((18, 32), Some 53475097656250010000); ((18, 33), Some 49564999389648440000); ((18, 34), Some 53095599365234380000); ((18, 35), Some 61190899658203130000); ((18, 36), Some 47965499877929700000); ((18, 37), Some 56580798339843750000); ((18, 38), Some 46630300903320316000); ((18, 39), Some 56900799560546870000); ((18, 40), Some 46320401000976566000); ((18, 41), Some 53925701904296880000); ((18, 42), Some 54245098876953130000); ((18, 43), Some 54305297851562500000); ((18, 44), Some 53790100097656250000); ((18, 47), Some 52500097656250010000); ((18, 48), Some 44980200195312500000); ((18, 49), Some 51880401611328130000); ((18, 50), Some 52805603027343750000); ((18, 51), Some 49660598754882820000); ((18, 52), Some 47330700683593754000); ((18, 53), Some 50155599975585940000); ((18, 54), Some 52220898437500000000); ((18, 55), Some 46425900268554690000); ((18, 56), Some 57765301513671880000); ((18, 57), Some 43855700683593753000); ((18, 58), Some 47890600585937500000); ((18, 59), Some 45705599975585940000); ((18, 60), Some 42680300903320316000)];
  [((19, 1), Some 60470697021484380000); ((19, 2), Some 60960302734375000000); ((19, 3), Some 68750201416015630000); ((19, 4), Some 49250201416015630000); ((19, 5), Some 56570800781250000000); ((19, 6), Some 57065502929687500000); ((19, 7), Some 49185900878906250000); ((19, 8), Some 52585198974609380000); ((19, 9), Some 53185699462890630000); ((19, 10), Some 52054998779296870000); ((19, 11), Some 59380603027343760000); ((19, 12), Some 55980102539062510000); ((19, 13), Some 59600201416015620000); ((19, 14), Some 53060699462890630000); ((19, 15), Some 49025399780273440000); ((19, 16), Some 51800897216796870000); ((19, 17), Some 59780297851562510000); ((19, 18), Some 50125698852539060000); ((19, 19), Some 54595898437500000000); ((19, 20), Some 49475601196289060000); ((19, 21), Some 61390301513671880000); ((19, 22), Some 50215301513671880000); ((19, 23), Some 51295697021484370000); ((19, 24), Some 63955200195312500000); ((19, 25), Some 65690600585937500000); ((19, 26), Some 56355499267578130000); ((19, 27), Some 51035198974609380000); ((19, 28), Some 53920397949218750000); ((19, 29), Some 53935198974609380000); ((19, 30), Some 46754998779296877000); ((19, 31), Some 54705297851562510000); ((19, 32), Some 47030801391601565000); ((19, 33), Some 57015399169921870000); ((19, 34), Some 45040798950195313000); ((19, 35), Some 47925399780273440000); ((19, 36), Some 56065399169921880000); ((19, 37), Some 56630700683593750000); ((19, 38), Some 54980499267578130000); ((19, 39), Some 54140698242187510000); ((19, 40), Some 52140002441406250000); ((19, 41), Some 50230700683593750000); ((19, 42), Some 54280700683593760000); ((19, 43), Some 49075698852539070000); ((19, 44), Some 49705599975585940000); ((19, 45), Some 47890899658203130000); ((19, 46), Some 50180200195312510000); ((19, 47), Some 46835000610351564000); ((19, 48), Some 55845001220703130000); ((19, 49), Some 44920599365234375000); ((19, 50), Some 56820697021484380000); ((19, 51), Some 41160598754882813000); ((19, 52), Some 52855401611328130000); ((19, 53), Some 47970498657226560000); ((19, 54), Some 40540701293945310000); ((19, 55), Some 49610198974609370000); ((19, 56), Some 50450698852539070000); ((19, 57), Some 44555300903320313000); ((19, 58), Some 46370599365234380000); ((19, 59), Some 39605300903320320000); ((19, 60), Some 49285299682617190000)];
  [((20, 1), Some 61565802001953130000); ((20, 2), Some 58175000000000010000); ((20, 3), Some 57580200195312500000); ((20, 4), Some 61615301513671880000); ((20, 5), Some 46760900878906253000); ((20, 6), Some 59360302734375000000); ((20, 7), Some 57275402832031250000); ((20, 8), Some 52295697021484380000); ((20, 9), Some 59245898437500000000); ((20, 10), Some 64300598144531260000); ((20, 11), Some 59965399169921880000); ((20, 12), Some 56520501708984380000); ((20, 13), Some 48955599975585940000); ((20, 14), Some 57934997558593750000); ((20, 15), Some 55140899658203130000); ((20, 16), Some 78055798339843760000); ((20, 17), Some 53450402832031250000); ((20, 18), Some 51930297851562500000); ((20, 19), Some 59790399169921880000); ((20, 20), Some 54250402832031250000); ((20, 21), Some 62765698242187510000); ((20, 22), Some 53995599365234370000); ((20, 23), Some 49970098876953130000); ((20, 24), Some 52040802001953130000); ((20, 25), Some 59460101318359380000); ((20, 26), Some 52905401611328120000); ((20, 27), Some 53320202636718750000); ((20, 28), Some 56470098876953130000); ((20, 29), Some 58610400390625010000); ((20, 30), Some 56220397949218760000); ((20, 31), Some 58770397949218760000); ((20, 32), Some 52635400390625000000); ((20, 33), Some 60230499267578120000); ((20, 34), Some 53430102539062500000); ((20, 35), Some 49480099487304690000); ((20, 36), Some 52304998779296880000); ((20, 37), Some 49470599365234370000); ((20, 38), Some 41835900878906254000); ((20, 39), Some 47770401000976570000); ((20, 40), Some 42575900268554690000); ((20, 41), Some 62680499267578130000); ((20, 42), Some 58795397949218750000); ((20, 43), Some 43680499267578125000); ((20, 44), Some 48455899047851570000); ((20, 45), Some 44010501098632814000); ((20, 46), Some 55770397949218760000); ((20, 47), Some 53934997558593760000); ((20, 48), Some 52200799560546880000); ((20, 49), Some 48455801391601570000); ((20, 50), Some 41750399780273440000); ((20, 51), Some 49425900268554690000); ((20, 52), Some 52285797119140630000); ((20, 53), Some 45445800781250003000); ((20, 54), Some 49900601196289060000); ((20, 55), Some 50490701293945320000); ((20, 56), Some 51795800781250000000); ((20, 57), Some 54260400390625000000); ((20, 58), Some 44745498657226566000); ((20, 59), Some 42120401000976563000); ((20, 60), Some 45155599975585940000)];
  [((21, 1), Some 53460797119140630000); ((21, 2), Some 60955297851562500000); ((21, 3), Some 56900299072265620000); ((21, 4), Some 54780603027343750000); ((21, 5), Some 70960101318359380000); ((21, 6), Some 60995501708984380000); ((21, 7), Some 60475500488281250000); ((21, 8), Some 65055102539062500000); ((21, 9), Some 55010601806640630000); ((21, 10), Some 54680200195312500000); ((21, 11), Some 52255200195312500000); ((21, 12), Some 55805700683593760000); ((21, 13), Some 56350500488281250000); ((21, 14), Some 62870001220703130000); ((21, 15), Some 48205801391601570000); ((21, 16), Some 58400299072265630000); ((21, 17), Some 58375500488281250000); ((21, 18), Some 58240502929687500000); ((21, 19), Some 48670498657226560000); ((21, 20), Some 56585302734375000000); ((21, 21), Some 53710400390625000000); ((21, 22), Some 55565399169921880000); ((21, 23), Some 55880798339843750000); ((21, 24), Some 55295501708984380000); ((21, 25), Some 50595300292968760000); ((21, 26), Some 57705102539062510000); ((21, 27), Some 55725500488281260000); ((21, 28), Some 48975698852539070000); ((21, 29), Some 49440899658203130000); ((21, 30), Some 47400799560546876000); ((21, 31), Some 52390100097656250000); ((21, 32), Some 50210900878906250000); ((21, 33), Some 46414999389648440000); ((21, 34), Some 55145697021484380000); ((21, 35), Some 44900900268554690000); ((21, 36), Some 55115301513671880000); ((21, 37), Some 48550698852539070000); ((21, 38), Some 47485400390625004000); ((21, 39), Some 56560101318359380000); ((21, 40), Some 56235797119140630000); ((21, 41), Some 51845397949218760000); ((21, 42), Some 58240002441406250000); ((21, 43), Some 47590399169921875000); ((21, 44), Some 51270300292968750000); ((21, 45), Some 47260299682617190000); ((21, 46), Some 50320498657226560000); ((21, 47), Some 46640200805664064000); ((21, 48), Some 58310699462890630000); ((21, 49), Some 48675399780273440000); ((21, 50), Some 56830297851562500000); ((21, 51), Some 56875799560546880000); ((21, 52), Some 49260000610351570000); ((21, 53), Some 49725100708007810000); ((21, 54), Some 59015502929687500000); ((21, 55), Some 65329998779296880000); ((21, 56), Some 63635699462890630000); ((21, 57), Some 57485699462890620000); ((21, 58), Some 61535498046875010000); ((21, 59), Some 54295001220703130000); ((21, 60), Some 49505899047851560000)];
  [((22, 1), Some 53205902099609380000); ((22, 2), Some 52440899658203130000); ((22, 3), Some 80405401611328140000); ((22, 4), Some 51970202636718750000); ((22, 5), Some 48489999389648440000); ((22, 6), Some 72305102539062500000); ((22, 7), Some 78300897216796870000); ((22, 8), Some 68385900878906250000); ((22, 9), Some 64540899658203130000); ((22, 10), Some 72175799560546880000); ((22, 11), Some 53745098876953130000); ((22, 12), Some 54340100097656260000); ((22, 13), Some 59765197753906250000); ((22, 14), Some 75755700683593750000); ((22, 15), Some 49715499877929690000); ((22, 16), Some 56645800781250010000); ((22, 17), Some 65235400390625010000); ((22, 18), Some 50470800781250000000); ((22, 19), Some 68860400390625010000); ((22, 20), Some 52170098876953120000); ((22, 21), Some 48945300292968750000); ((22, 22), Some 66210400390625010000); ((22, 23), Some 48900500488281250000); ((22, 24), Some 56800299072265630000); ((22, 25), Some 75040502929687510000); ((22, 26), Some 52400000000000000000); ((22, 27), Some 68830200195312510000); ((22, 28), Some 62634997558593750000); ((22, 29), Some 63735900878906250000); ((22, 30), Some 62715301513671880000); ((22, 31), Some 48130300903320310000); ((22, 32), Some 72740399169921880000); ((22, 33), Some 58515002441406250000); ((22, 34), Some 66450897216796870000); ((22, 35), Some 73815301513671870000); ((22, 36), Some 65590802001953130000); ((22, 37), Some 64600701904296880000); ((22, 38), Some 52945098876953130000); ((22, 39), Some 52780102539062500000); ((22, 40), Some 60900598144531250000); ((22, 41), Some 53015502929687500000); ((22, 42), Some 77055297851562500000); ((22, 43), Some 57810601806640630000); ((22, 44), Some 78130200195312510000); ((22, 45), Some 63340100097656260000); ((22, 46), Some 57030401611328130000); ((22, 47), Some 53975897216796880000); ((22, 48), Some 67425097656250010000); ((22, 49), Some 120000004768371580); ((22, 50), Some 61970397949218760000); ((22, 51), Some 86755603027343750000); ((22, 52), Some 74625402832031260000); ((22, 53), Some 71450000000000000000); ((22, 54), Some 62685101318359380000); ((22, 55), Some 54395697021484370000); ((22, 56), Some 56245501708984380000); ((22, 57), Some 60415802001953130000); ((22, 58), Some 52855297851562510000); ((22, 59), Some 75470202636718750000); ((22, 60), Some 85785699462890630000)];
  [((23, 1), Some 52430297851562510000); ((23, 2), Some 63635797119140630000); ((23, 3), Some 57885498046875010000); ((23, 4), Some 64640899658203130000); ((23, 5), Some 73120098876953130000); ((23, 6), Some 55710400390625000000); ((23, 7), Some 59660900878906250000); ((23, 8), Some 57109997558593750000); ((23, 9), Some 60740899658203130000); ((23, 10), Some 60710302734375010000); ((23, 11), Some 52470098876953120000); ((23, 12), Some 60570202636718750000); ((23, 13), Some 63300897216796880000); ((23, 14), Some 69920599365234370000); ((23, 15), Some 67250201416015630000); ((23, 16), Some 59070300292968760000); ((23, 17), Some 63625097656250010000); ((23, 18), Some 61745800781250000000); ((23, 19), Some 49370800781250000000); ((23, 20), Some 59345397949218750000); ((23, 21), Some 54285198974609380000); ((23, 22), Some 53270800781250010000); ((23, 23), Some 54740502929687510000); ((23, 24), Some 56005499267578120000); ((23, 25), Some 49035198974609370000); ((23, 26), Some 50050399780273440000); ((23, 27), Some 68000500488281260000); ((23, 28), Some 55665197753906250000); ((23, 29), Some 54500500488281250000); ((23, 30), Some 69820800781250000000); ((23, 31), Some 48030599975585940000); ((23, 32), Some 51795697021484380000); ((23, 33), Some 53305499267578120000); ((23, 34), Some 53765002441406260000); ((23, 35), Some 45575299072265625000); ((23, 36), Some 45405099487304690000); ((23, 37), Some 46730700683593750000); ((23, 38), Some 45965399169921880000); ((23, 39), Some 54640802001953130000); ((23, 40), Some 44375601196289070000); ((23, 41), Some 70310101318359380000); ((23, 42), Some 50260198974609380000); ((23, 43), Some 58595501708984380000); ((23, 44), Some 64330798339843750000); ((23, 45), Some 51560101318359380000); ((23, 46), Some 45985598754882816000); ((23, 47), Some 62525299072265630000); ((23, 48), Some 58210198974609370000); ((23, 49), Some 65465802001953130000); ((23, 50), Some 47140200805664065000); ((23, 51), Some 47520599365234380000); ((23, 52), Some 55730798339843750000); ((23, 53), Some 65325402832031260000); ((23, 54), Some 49430398559570320000); ((23, 55), Some 43275299072265627000); ((23, 56), Some 63215301513671880000); ((23, 57), Some 58800097656250000000); ((23, 58), Some 47225799560546880000); ((23, 59), Some 49675100708007820000); ((23, 60), Some 63655499267578130000)];
  [((24, 1), Some 54755902099609380000); ((24, 2), Some 62245800781250000000); ((24, 3), Some 58225097656250000000); ((24, 4), Some 68545697021484380000); ((24, 5), Some 56225097656250000000); ((24, 6), Some 49820498657226570000); ((24, 7), Some 61795697021484380000); ((24, 8), Some 52990698242187500000); ((24, 9), Some 60000598144531250000); ((24, 10), Some 63380700683593750000); ((24, 11), Some 55945697021484370000); ((24, 12), Some 59059997558593750000); ((24, 13), Some 52705700683593760000); ((24, 14), Some 63280499267578130000); ((24, 15), Some 49504998779296880000); ((24, 16), Some 53270800781250010000); ((24, 17), Some 59779998779296880000); ((24, 18), Some 59950598144531260000); ((24, 19), Some 62450799560546880000); ((24, 20), Some 52335601806640630000); ((24, 21), Some 64645202636718750000); ((24, 22), Some 63620397949218750000); ((24, 23), Some 57350598144531250000); ((24, 24), Some 64640899658203130000); ((24, 25), Some 44875698852539064000); ((24, 26), Some 67425097656250010000); ((24, 27), Some 67690802001953130000); ((24, 28), Some 50210400390625000000); ((24, 29), Some 61845800781250010000); ((24, 30), Some 55240698242187500000); ((24, 31), Some 58840600585937500000); ((24, 32), Some 63715600585937500000); ((24, 33), Some 51090200805664070000); ((24, 34), Some 49089999389648440000); ((24, 35), Some 51935302734375000000); ((24, 36), Some 48760198974609370000); ((24, 37), Some 54075598144531250000); ((24, 38), Some 51130700683593750000); ((24, 39), Some 55270800781250000000); ((24, 40), Some 48390499877929700000); ((24, 41), Some 50385299682617190000); ((24, 42), Some 48480499267578130000); ((24, 43), Some 47500201416015625000); ((24, 44), Some 54420599365234370000); ((24, 45), Some 65795800781250010000); ((24, 46), Some 45680801391601565000); ((24, 47), Some 47345599365234380000); ((24, 48), Some 40855499267578130000); ((24, 49), Some 51565502929687500000); ((24, 50), Some 49455200195312500000); ((24, 51), Some 52225201416015630000); ((24, 52), Some 58840197753906250000); ((24, 53), Some 59445501708984380000); ((24, 54), Some 47450601196289066000); ((24, 55), Some 56000201416015630000); ((24, 57), Some 60915399169921880000); ((24, 58), Some 61855700683593760000); ((24, 59), Some 55655603027343750000); ((24, 60), Some 55209997558593760000)];
  [((25, 1), Some 54040502929687510000); ((25, 2), Some 47345199584960940000); ((25, 3), Some 68445800781250000000); ((25, 4), Some 68330401611328130000); ((25, 5), Some 59895202636718760000); ((25, 6), Some 54065100097656250000); ((25, 7), Some 69545300292968750000); ((25, 8), Some 53020098876953120000); ((25, 9), Some 70950402832031250000); ((25, 10), Some 56210198974609380000); ((25, 11), Some 61680603027343750000); ((25, 12), Some 62325897216796880000); ((25, 13), Some 66270397949218750000); ((25, 14), Some 55600402832031260000); ((25, 15), Some 57045599365234380000); ((25, 16), Some 63535400390625010000); ((25, 17), Some 62770202636718750000); ((25, 18), Some 63940899658203130000); ((25, 19), Some 55355603027343750000); ((25, 20), Some 65165100097656260000); ((25, 21), Some 51170498657226560000); ((25, 22), Some 45445800781250003000); ((25, 23), Some 42400201416015630000); ((25, 24), Some 59305902099609380000); ((25, 25), Some 52984997558593750000); ((25, 26), Some 52875897216796880000); ((25, 27), Some 67395501708984380000); ((25, 28), Some 58305499267578130000); ((25, 29), Some 63885498046875000000); ((25, 30), Some 58830603027343750000); ((25, 31), Some 53030603027343760000); ((25, 32), Some 55780700683593750000); ((25, 33), Some 56670599365234370000); ((25, 34), Some 52465301513671880000); ((25, 35), Some 51230700683593750000); ((25, 36), Some 58945599365234380000); ((25, 37), Some 56245697021484380000); ((25, 38), Some 51425097656250000000); ((25, 39), Some 59740600585937500000); ((25, 40), Some 48175299072265620000); ((25, 41), Some 52010900878906250000); ((25, 42), Some 62245397949218760000); ((25, 43), Some 53365399169921880000); ((25, 44), Some 54855603027343760000); ((25, 45), Some 50870098876953130000); ((25, 46), Some 52250402832031260000); ((25, 47), Some 43935900878906253000); ((25, 48), Some 59405401611328120000); ((25, 49), Some 52415600585937500000); ((25, 50), Some 57490698242187500000); ((25, 51), Some 58310797119140620000); ((25, 52), Some 53320599365234380000); ((25, 53), Some 62225701904296880000); ((25, 54), Some 77735302734375000000); ((25, 55), Some 52715600585937500000); ((25, 56), Some 56545397949218750000); ((25, 57), Some 60180902099609380000); ((25, 58), Some 53995697021484380000); ((25, 59), Some 60929998779296880000); ((25, 60), Some 70320599365234380000)];
  [((26, 1), Some 54995001220703130000); ((26, 2), Some 56000000000000000000); ((26, 3), Some 49500900268554690000); ((26, 4), Some 51825201416015630000); ((26, 5), Some 55660900878906250000); ((26, 6), Some 68850000000000010000); ((26, 7), Some 69865600585937500000); ((26, 8), Some 65190002441406260000); ((26, 9), Some 63960797119140630000); ((26, 10), Some 64465802001953130000); ((26, 11), Some 56150799560546880000); ((26, 12), Some 52350201416015630000); ((26, 13), Some 57545300292968750000); ((26, 14), Some 63684997558593760000); ((26, 15), Some 60595397949218760000); ((26, 16), Some 66335302734375000000); ((26, 17), Some 51785601806640630000); ((26, 18), Some 58375701904296880000); ((26, 19), Some 61665100097656260000); ((26, 20), Some 53759997558593750000); ((26, 21), Some 53040600585937510000); ((26, 22), Some 58775000000000000000); ((26, 23), Some 50745800781250000000); ((26, 24), Some 56515100097656250000); ((26, 25), Some 46760900878906253000); ((26, 26), Some 50085000610351560000); ((26, 27), Some 58834997558593750000); ((26, 28), Some 57845800781250000000); ((26, 29), Some 49120901489257820000); ((26, 30), Some 51645202636718750000); ((26, 31), Some 56140301513671880000); ((26, 32), Some 55590100097656260000); ((26, 33), Some 43075900268554690000); ((26, 34), Some 62150799560546880000); ((26, 35), Some 51440502929687500000); ((26, 36), Some 55945300292968760000); ((26, 37), Some 51510797119140630000); ((26, 38), Some 53175598144531260000); ((26, 39), Some 47360699462890626000); ((26, 40), Some 51355798339843750000); ((26, 41), Some 65720397949218750000); ((26, 42), Some 61525799560546880000); ((26, 43), Some 56105700683593760000); ((26, 44), Some 52779998779296870000); ((26, 45), Some 55905499267578130000); ((26, 47), Some 58295397949218750000); ((26, 48), Some 54260699462890630000); ((26, 49), Some 48929998779296880000); ((26, 50), Some 53265698242187500000); ((26, 51), Some 54285498046875000000); ((26, 52), Some 47225201416015626000); ((26, 53), Some 50600601196289060000); ((26, 54), Some 50564999389648440000); ((26, 55), Some 47305499267578130000); ((26, 56), Some 48460000610351570000); ((26, 57), Some 49945498657226560000); ((26, 58), Some 49535699462890630000); ((26, 59), Some 58175500488281250000); ((26, 60), Some 54925299072265620000)];
  [((27, 1), Some 58805700683593760000); ((27, 2), Some 61875897216796880000); ((27, 3), Some 70975000000000010000); ((27, 4), Some 61400000000000010000); ((27, 5), Some 69475598144531250000); ((27, 6), Some 53130700683593760000); ((27, 9), Some 70409997558593760000); ((27, 10), Some 59820202636718750000); ((27, 11), Some 59025897216796880000); ((27, 12), Some 57890197753906250000); ((27, 13), Some 62555603027343750000); ((27, 14), Some 47620300292968750000); ((27, 15), Some 59115301513671880000); ((27, 16), Some 54810198974609370000); ((27, 17), Some 60510302734375000000); ((27, 18), Some 57800897216796880000); ((27, 19), Some 58520397949218750000); ((27, 20), Some 51180599975585950000); ((27, 21), Some 53510601806640630000); ((27, 22), Some 61150201416015620000); ((27, 23), Some 49560198974609380000); ((27, 24), Some 56180499267578130000); ((27, 25), Some 62305603027343760000); ((27, 26), Some 55709997558593750000); ((27, 27), Some 52975201416015620000); ((27, 28), Some 47375601196289065000); ((27, 29), Some 48470498657226570000); ((27, 30), Some 51535302734375000000); ((27, 31), Some 54035797119140630000); ((27, 32), Some 53190301513671880000); ((27, 33), Some 50720300292968760000); ((27, 34), Some 48055700683593760000); ((27, 35), Some 51605902099609380000); ((27, 36), Some 56210797119140630000); ((27, 37), Some 52700000000000000000); ((27, 38), Some 51880401611328130000); ((27, 39), Some 50825100708007820000); ((27, 40), Some 54995898437500000000); ((27, 41), Some 48725900268554690000); ((27, 42), Some 53080700683593750000); ((27, 43), Some 59300897216796880000); ((27, 44), Some 54075097656250000000); ((27, 45), Some 52395800781250010000); ((27, 46), Some 47570800781250004000); ((27, 47), Some 55895599365234380000); ((27, 48), Some 48895700073242200000); ((27, 49), Some 55665899658203130000); ((27, 50), Some 49490899658203130000); ((27, 51), Some 54305603027343760000); ((27, 52), Some 50135198974609380000); ((27, 53), Some 46585800170898440000); ((27, 54), Some 52995697021484370000); ((27, 55), Some 48625698852539070000); ((27, 56), Some 52315399169921880000); ((27, 57), Some 47320199584960940000); ((27, 58), Some 50690200805664060000); ((27, 59), Some 44115100097656253000); ((27, 60), Some 42215600585937504000)];
  [((28, 1), Some 60615600585937500000); ((28, 2), Some 76440600585937510000); ((28, 3), Some 58565301513671880000); ((28, 4), Some 61475402832031250000); ((28, 5), Some 66765802001953130000); ((28, 6), Some 56050000000000010000); ((28, 7), Some 53790100097656250000); ((28, 8), Some 51795397949218750000); ((28, 9), Some 58884997558593760000); ((28, 10), Some 60070599365234380000); ((28, 11), Some 47685501098632820000); ((28, 12), Some 52540802001953130000); ((28, 13), Some 54910498046875010000); ((28, 14), Some 68055499267578130000); ((28, 15), Some 52540502929687500000); ((28, 16), Some 54045397949218750000); ((28, 17), Some 59015002441406260000); ((28, 18), Some 57790197753906250000); ((28, 19), Some 53915002441406260000); ((28, 20), Some 59670697021484380000); ((28, 21), Some 55175097656250010000); ((28, 22), Some 58590100097656250000); ((28, 23), Some 54060498046875010000); ((28, 24), Some 50885699462890630000); ((28, 25), Some 59605902099609380000); ((28, 26), Some 48695300292968750000); ((28, 27), Some 52730902099609380000); ((28, 28), Some 57945202636718760000); ((28, 29), Some 53270599365234380000); ((28, 30), Some 53815698242187500000); ((28, 31), Some 56335699462890630000); ((28, 32), Some 59970001220703130000); ((28, 33), Some 47325399780273440000); ((28, 34), Some 60870098876953130000); ((28, 35), Some 58675402832031250000); ((28, 36), Some 50320599365234370000); ((28, 37), Some 44305200195312503000); ((28, 38), Some 53360601806640630000); ((28, 39), Some 48940200805664070000); ((28, 40), Some 59270800781250000000); ((28, 43), Some 52754998779296880000); ((28, 44), Some 53665802001953130000); ((28, 45), Some 64395202636718750000); ((28, 46), Some 43705899047851566000); ((28, 47), Some 47850799560546870000); ((28, 48), Some 49075799560546880000); ((28, 49), Some 52410699462890620000); ((28, 50), Some 45890600585937505000); ((28, 51), Some 47705599975585940000); ((28, 52), Some 49200201416015630000); ((28, 53), Some 49585000610351570000); ((28, 54), Some 52870001220703130000); ((28, 55), Some 45620498657226570000); ((28, 56), Some 48490798950195320000); ((28, 57), Some 52315802001953130000); ((28, 58), Some 52905102539062510000); ((28, 59), Some 50635101318359380000); ((28, 60), Some 51095800781250000000)];
  [((29, 1), Some 60650000000000000000); ((29, 2), Some 58290197753906250000); ((29, 3), Some 58175000000000010000); ((29, 4), Some 64910101318359380000); ((29, 5), Some 62410498046875000000); ((29, 6), Some 53195599365234380000); ((29, 7), Some 58375500488281250000); ((29, 8), Some 49630801391601570000); ((29, 9), Some 53345599365234380000); ((29, 10), Some 62530499267578130000); ((29, 11), Some 50785000610351560000); ((29, 12), Some 49810000610351560000); ((29, 13), Some 68335498046875000000); ((29, 14), Some 40690399169921876000); ((29, 15), Some 57865399169921870000); ((29, 16), Some 64050201416015630000); ((29, 17), Some 46265600585937500000); ((29, 18), Some 60410400390625010000); ((29, 19), Some 55915899658203130000); ((29, 20), Some 50605499267578130000); ((29, 21), Some 59755401611328130000); ((29, 22), Some 53655297851562500000); ((29, 23), Some 46710598754882820000); ((29, 24), Some 52385302734375000000); ((29, 25), Some 54645202636718750000); ((29, 26), Some 47765200805664060000); ((29, 27), Some 52759997558593750000); ((29, 28), Some 52805200195312500000); ((29, 29), Some 60095300292968750000); ((29, 30), Some 58150701904296880000); ((29, 31), Some 56945697021484380000); ((29, 32), Some 41660699462890626000); ((29, 33), Some 52305902099609380000); ((29, 34), Some 58860400390625010000); ((29, 35), Some 44735699462890630000); ((29, 36), Some 49760598754882810000); ((29, 37), Some 61780902099609370000); ((29, 38), Some 63190399169921880000); ((29, 39), Some 62715301513671880000); ((29, 40), Some 55800500488281250000); ((29, 41), Some 65865301513671880000); ((29, 42), Some 46905398559570317000); ((29, 43), Some 61045800781250000000); ((29, 44), Some 57960498046875000000); ((29, 45), Some 48275399780273440000); ((29, 46), Some 59675299072265630000); ((29, 47), Some 41735900878906250000); ((29, 48), Some 43645001220703130000); ((29, 49), Some 57234997558593750000); ((29, 50), Some 69685101318359380000); ((29, 51), Some 55615197753906250000); ((29, 52), Some 47920599365234370000); ((29, 53), Some 38230398559570316000); ((29, 54), Some 66690002441406250000); ((29, 55), Some 54365502929687500000); ((29, 56), Some 58170898437500010000); ((29, 57), Some 79450097656250010000); ((29, 58), Some 62645397949218750000)];
  [((30, 1), Some 59115100097656260000); ((30, 2), Some 56840197753906260000); ((30, 3), Some 58460900878906260000); ((30, 4), Some 59345800781250000000); ((30, 5), Some 57360797119140630000); ((30, 6), Some 61340197753906260000); ((30, 7), Some 56665502929687500000); ((30, 8), Some 58385601806640630000); ((30, 9), Some 58635699462890630000); ((30, 10), Some 55755603027343750000); ((30, 11), Some 55795001220703130000); ((30, 12), Some 49285699462890630000); ((30, 13), Some 67885900878906260000); ((30, 14), Some 52290002441406250000); ((30, 15), Some 62130297851562500000); ((30, 16), Some 63095697021484380000); ((30, 17), Some 49875100708007810000); ((30, 18), Some 62860900878906250000); ((30, 19), Some 50530398559570310000); ((30, 20), Some 44585699462890630000); ((30, 21), Some 46820800781250005000); ((30, 22), Some 54530902099609380000); ((30, 24), Some 48350799560546880000); ((30, 25), Some 52720300292968760000); ((30, 26), Some 49145098876953130000); ((30, 27), Some 46820300292968754000); ((30, 28), Some 44255899047851565000); ((30, 29), Some 54800201416015620000); ((30, 30), Some 42955700683593754000); ((30, 31), Some 59240600585937510000); ((30, 32), Some 48400000000000000000); ((30, 33), Some 50945800781250000000); ((30, 34), Some 54665002441406250000); ((30, 35), Some 53540197753906250000); ((30, 36), Some 48190200805664060000); ((30, 37), Some 44114999389648440000); ((30, 38), Some 45465499877929690000); ((30, 39), Some 55305102539062510000); ((30, 40), Some 52765802001953130000); ((30, 41), Some 53465002441406250000); ((30, 42), Some 45555700683593753000); ((30, 43), Some 45420901489257813000); ((30, 44), Some 44185000610351566000); ((30, 45), Some 55345599365234380000); ((30, 46), Some 50405700683593750000); ((30, 47), Some 62020800781250000000); ((30, 48), Some 44380398559570320000); ((30, 49), Some 62635101318359380000); ((30, 50), Some 61160198974609370000); ((30, 51), Some 59750097656250000000); ((30, 52), Some 57975402832031250000); ((30, 53), Some 54285900878906250000); ((30, 54), Some 53175897216796880000); ((30, 55), Some 62445898437500000000); ((30, 56), Some 53679998779296880000); ((30, 57), Some 49605200195312500000); ((30, 58), Some 57735400390625010000); ((30, 59), Some 48200299072265630000)];
  [((31, 1), Some 51565698242187500000); ((31, 2), Some 70620501708984380000); ((31, 3), Some 56740301513671880000); ((31, 4), Some 60630700683593760000); ((31, 5), Some 69615899658203130000); ((31, 6), Some 52880798339843750000); ((31, 7), Some 58425598144531260000); ((31, 8), Some 51734997558593750000); ((31, 9), Some 56945098876953130000); ((31, 10), Some 54765301513671880000); ((31, 11), Some 55210302734375010000); ((31, 12), Some 73925097656250010000); ((31, 13), Some 70930297851562510000); ((31, 14), Some 76945697021484380000); ((31, 15), Some 58015301513671870000); ((31, 16), Some 61160198974609370000); ((31, 17), Some 50500100708007820000); ((31, 18), Some 62525500488281260000); ((31, 19), Some 57545599365234380000); ((31, 20), Some 61400701904296880000); ((31, 21), Some 54270300292968760000); ((31, 22), Some 51030300903320320000); ((31, 23), Some 44135000610351567000); ((31, 24), Some 68490100097656250000); ((31, 25), Some 51720898437500000000); ((31, 26), Some 54240197753906250000); ((31, 27), Some 67525097656250000000); ((31, 28), Some 46075500488281250000); ((31, 29), Some 50050799560546880000); ((31, 30), Some 54140002441406250000); ((31, 31), Some 56675097656250000000); ((31, 32), Some 57530200195312510000); ((31, 33), Some 60085601806640630000); ((31, 34), Some 54290197753906260000); ((31, 35), Some 58335198974609380000); ((31, 36), Some 63725299072265630000); ((31, 37), Some 59885198974609380000); ((31, 38), Some 50905099487304690000); ((31, 39), Some 58455102539062500000); ((31, 40), Some 60255798339843750000); ((31, 41), Some 56835302734375000000); ((31, 42), Some 76105603027343750000); ((31, 43), Some 60510302734375000000); ((31, 44), Some 46145199584960940000); ((31, 45), Some 61455200195312510000); ((31, 46), Some 51965600585937500000); ((31, 47), Some 52020501708984380000); ((31, 48), Some 57245397949218750000); ((31, 49), Some 48640701293945320000); ((31, 50), Some 54635900878906260000); ((31, 51), Some 56815197753906260000); ((31, 52), Some 53745300292968750000); ((31, 53), Some 52765802001953130000); ((31, 54), Some 50405200195312500000); ((31, 55), Some 49560598754882820000); ((31, 56), Some 61765100097656260000); ((31, 57), Some 51235498046875010000); ((31, 58), Some 43045199584960940000); ((31, 59), Some 75185400390625000000); ((31, 60), Some 81825701904296880000)];
  [((32, 1), Some 81900500488281250000); ((32, 2), Some 60390502929687510000); ((32, 3), Some 78045098876953130000); ((32, 4), Some 73445697021484380000); ((32, 5), Some 70375799560546880000); ((32, 6), Some 68530700683593760000); ((32, 7), Some 75525201416015630000); ((32, 8), Some 70115301513671880000); ((32, 9), Some 66440301513671880000); ((32, 10), Some 61335400390625000000); ((32, 11), Some 49735699462890620000); ((32, 12), Some 48755200195312500000); ((32, 13), Some 49250698852539070000); ((32, 14), Some 55870697021484380000); ((32, 15), Some 61830297851562500000); ((32, 16), Some 62480200195312510000); ((32, 17), Some 49665600585937510000); ((32, 18), Some 67170001220703130000); ((32, 19), Some 69960900878906250000); ((32, 20), Some 56030102539062500000); ((32, 21), Some 71965899658203130000); ((32, 22), Some 64970202636718760000); ((32, 23), Some 65595800781250000000); ((32, 24), Some 50445199584960940000); ((32, 25), Some 53270599365234380000); ((32, 26), Some 55555297851562510000); ((32, 27), Some 52900500488281260000); ((32, 28), Some 69884997558593760000); ((32, 29), Some 60280603027343750000); ((32, 30), Some 70005401611328130000); ((32, 31), Some 48845700073242190000); ((32, 32), Some 62135699462890620000); ((32, 33), Some 57554998779296870000); ((32, 34), Some 50800601196289070000); ((32, 35), Some 50075799560546880000); ((32, 36), Some 61515399169921880000); ((32, 37), Some 58625799560546880000); ((32, 38), Some 57415899658203120000); ((32, 39), Some 55230700683593750000); ((32, 40), Some 63860198974609380000); ((32, 41), Some 62430499267578130000); ((32, 42), Some 52535400390625010000); ((32, 43), Some 57490002441406250000); ((32, 44), Some 48465798950195320000); ((32, 45), Some 50985299682617190000); ((32, 46), Some 69380200195312510000); ((32, 47), Some 66300299072265630000); ((32, 48), Some 61970898437500010000); ((32, 49), Some 46665399169921880000); ((32, 50), Some 60685302734375000000); ((32, 51), Some 54030200195312500000); ((32, 52), Some 70725402832031260000); ((32, 53), Some 69670202636718760000); ((32, 54), Some 67140197753906260000); ((32, 55), Some 64975701904296880000); ((32, 56), Some 68579998779296880000); ((32, 59), Some 61840197753906250000); ((32, 60), Some 72945898437500010000)];
  [((33, 1), Some 61195098876953120000); ((33, 2), Some 55300097656250010000); ((33, 3), Some 57020098876953130000); ((33, 4), Some 62780798339843750000); ((33, 5), Some 58625402832031250000); ((33, 6), None); ((33, 7), Some 52050000000000000000); ((33, 8), Some 66290502929687510000); ((33, 9), Some 65865301513671880000); ((33, 10), Some 65555603027343760000); ((33, 11), Some 55215899658203130000); ((33, 12), Some 67710498046875000000); ((33, 13), Some 68575799560546880000); ((33, 14), Some 61645397949218750000); ((33, 15), Some 49465899658203130000); ((33, 16), Some 51845397949218760000); ((33, 17), Some 63560302734375010000); ((33, 18), Some 63615502929687510000); ((33, 19), Some 72595501708984380000); ((33, 20), Some 63400097656250000000); ((33, 21), Some 60630401611328130000); ((33, 22), Some 59130401611328130000); ((33, 23), Some 56525598144531250000); ((33, 24), Some 52080603027343750000); ((33, 25), Some 53575500488281250000); ((33, 26), Some 51335699462890630000); ((33, 27), Some 52575701904296880000); ((33, 28), Some 62890502929687500000); ((33, 29), Some 59770898437500000000); ((33, 30), Some 63560101318359380000); ((33, 31), Some 56720001220703130000); ((33, 32), Some 56065899658203130000); ((33, 33), Some 53400000000000000000); ((33, 34), Some 54825897216796880000); ((33, 35), Some 63120397949218760000); ((33, 36), Some 59705102539062500000); ((33, 37), Some 57195501708984380000); ((33, 38), Some 47875698852539060000); ((33, 39), Some 53745800781250000000); ((33, 40), Some 57260198974609380000); ((33, 41), Some 57415600585937510000); ((33, 42), Some 61435198974609380000); ((33, 43), Some 59090399169921880000); ((33, 44), Some 48745098876953130000); ((33, 45), Some 61920898437500000000); ((33, 46), Some 48725100708007820000); ((33, 47), Some 59675000000000000000); ((33, 48), Some 56975701904296880000); ((33, 49), Some 55005200195312510000); ((33, 50), Some 62900402832031250000); ((33, 51), Some 52250500488281250000); ((33, 52), Some 58760797119140630000); ((33, 53), Some 54975799560546880000); ((33, 54), Some 52620599365234380000); ((33, 55), Some 54415502929687500000); ((33, 56), Some 61045300292968760000); ((33, 57), Some 62685198974609380000); ((33, 58), Some 54570397949218750000); ((33, 59), Some 46990301513671876000); ((33, 60), Some 45935900878906255000)];
  [((34, 1), Some 55030102539062510000); ((34, 2), Some 51950799560546870000); ((34, 3), Some 58495501708984380000); ((34, 4), Some 57150799560546880000); ((34, 5), Some 70165698242187500000); ((34, 6), Some 55095098876953130000); ((34, 7), Some 55175097656250010000); ((34, 8), Some 55990502929687500000); ((34, 9), Some 57140698242187500000); ((34, 10), Some 60305700683593760000); ((34, 16), Some 64145697021484380000); ((34, 18), Some 56665899658203130000); ((34, 19), Some 57500701904296880000); ((34, 20), Some 49720001220703130000); ((34, 21), Some 45885101318359380000); ((34, 23), Some 63755297851562500000); ((34, 24), Some 62530102539062500000); ((34, 25), Some 54945300292968760000); ((34, 26), Some 50545800781250000000); ((34, 27), Some 55615899658203130000); ((34, 28), Some 53975598144531250000); ((34, 29), Some 63515802001953130000); ((34, 30), Some 58870397949218760000); ((34, 31), Some 49895700073242190000); ((34, 32), Some 48145498657226570000); ((34, 33), Some 63210699462890630000); ((34, 34), Some 51190499877929690000); ((34, 35), Some 52530200195312500000); ((34, 36), Some 53095202636718750000); ((34, 37), Some 49295199584960940000); ((34, 38), Some 54875897216796880000); ((34, 39), Some 59330700683593760000); ((34, 40), Some 58835400390625000000); ((34, 41), Some 51275701904296870000); ((34, 42), Some 56350598144531250000); ((34, 43), Some 59154998779296880000); ((34, 44), Some 58685797119140630000); ((34, 45), Some 49705599975585940000); ((34, 46), Some 44840399169921875000); ((34, 47), Some 48129998779296870000); ((34, 48), Some 46810198974609376000); ((34, 49), Some 53360699462890630000); ((34, 50), Some 47250299072265630000); ((34, 51), Some 50135400390625010000); ((34, 52), Some 56504998779296880000); ((34, 53), Some 53184997558593750000); ((34, 54), Some 60915197753906260000); ((34, 55), Some 56555603027343760000); ((34, 56), Some 52295397949218750000); ((34, 57), Some 49070901489257810000); ((34, 58), Some 53160400390625000000); ((34, 59), Some 56140698242187500000); ((34, 60), Some 60125500488281260000)];
  [((35, 1), Some 50379998779296870000); ((35, 2), Some 53265502929687500000); ((35, 3), Some 58570001220703130000); ((35, 4), Some 69305297851562500000); ((35, 5), Some 58670599365234380000); ((35, 6), Some 55750000000000010000); ((35, 7), Some 50695599365234380000); ((35, 8), Some 65509997558593760000); ((35, 9), Some 47479998779296880000); ((35, 10), Some 54080200195312500000); ((35, 11), Some 57685302734375000000); ((35, 12), Some 61300299072265630000); ((35, 13), Some 66200299072265630000); ((35, 14), Some 53855700683593760000); ((35, 15), Some 58875897216796880000); ((35, 16), Some 64730798339843750000); ((35, 17), Some 59610498046875000000); ((35, 18), Some 57530603027343760000); ((35, 19), Some 59880603027343750000); ((35, 20), Some 57960797119140630000); ((35, 21), Some 53260101318359380000); ((35, 22), Some 61990197753906250000); ((35, 23), Some 62365502929687510000); ((35, 24), Some 57440197753906250000); ((35, 25), Some 52895098876953130000); ((35, 26), Some 52260699462890620000); ((35, 27), Some 53915899658203130000); ((35, 28), Some 51720898437500000000); ((35, 29), Some 55770800781250010000); ((35, 30), Some 63515600585937500000); ((35, 31), Some 51200097656250000000); ((35, 32), Some 52075500488281260000); ((35, 33), Some 48855200195312500000); ((35, 34), Some 48015899658203130000); ((35, 35), Some 50430099487304690000); ((35, 36), Some 51460400390625000000); ((35, 37), Some 56590899658203130000); ((35, 38), Some 48920498657226560000); ((35, 39), Some 45800299072265626000); ((35, 40), Some 45950601196289064000); ((35, 41), Some 47675399780273440000); ((35, 42), Some 50495098876953120000); ((35, 43), Some 62005798339843760000); ((35, 44), Some 47085900878906250000); ((35, 45), Some 52150402832031250000); ((35, 46), Some 44125900268554690000); ((35, 47), Some 42660598754882815000); ((35, 48), Some 54090899658203130000); ((35, 49), Some 48460501098632820000); ((35, 50), Some 51450000000000000000); ((35, 51), Some 59525598144531260000); ((35, 52), Some 49400000000000010000); ((35, 53), Some 44480899047851566000); ((35, 54), Some 47035699462890630000); ((35, 55), Some 44650900268554690000); ((35, 56), Some 48855200195312500000); ((35, 57), Some 75545800781250010000); ((35, 58), Some 71240197753906260000); ((35, 59), Some 70925000000000000000); ((35, 60), Some 75595501708984380000)];
  [((36, 1), Some 57970800781250000000); ((36, 2), Some 72270202636718750000); ((36, 3), Some 58629998779296880000); ((36, 4), Some 58995800781250000000); ((36, 5), Some 58830798339843750000); ((36, 6), Some 67035699462890630000); ((36, 7), Some 59435101318359380000); ((36, 8), Some 66075097656250000000); ((36, 9), Some 58650701904296880000); ((36, 10), Some 55990802001953130000); ((36, 11), Some 68215399169921880000); ((36, 12), Some 54240399169921880000); ((36, 13), Some 58905102539062500000); ((36, 14), Some 51990002441406250000); ((36, 15), Some 63179998779296880000); ((36, 16), Some 56375897216796880000); ((36, 17), Some 56805401611328130000); ((36, 18), Some 68605401611328130000); ((36, 19), Some 47775100708007810000); ((36, 20), Some 56745300292968750000); ((36, 21), Some 48230899047851560000); ((36, 22), Some 50420800781250010000); ((36, 23), Some 48579998779296880000); ((36, 24), Some 53305499267578120000); ((36, 25), Some 58820098876953130000); ((36, 26), Some 55750402832031260000); ((36, 27), Some 61290100097656250000); ((36, 28), Some 54795898437500010000); ((36, 29), Some 49615499877929690000); ((36, 30), Some 49465899658203130000); ((36, 31), Some 39180398559570314000); ((36, 32), Some 50070401000976560000); ((36, 33), Some 51660302734375000000); ((36, 34), Some 47810400390625000000); ((36, 35), Some 44120901489257816000); ((36, 36), Some 58035400390625010000); ((36, 37), Some 51085400390625000000); ((36, 38), Some 51060400390625000000); ((36, 39), Some 65980603027343760000); ((36, 40), Some 56995202636718750000); ((36, 41), Some 60525897216796870000); ((36, 42), Some 46590798950195313000); ((36, 43), Some 52630200195312500000); ((36, 44), Some 70500799560546880000); ((36, 45), Some 51435302734375010000); ((36, 46), Some 68560601806640630000); ((36, 47), Some 59975097656250010000); ((36, 48), Some 56434997558593750000); ((36, 49), Some 70855902099609380000); ((36, 50), Some 72010198974609380000); ((36, 51), Some 62895001220703130000); ((36, 52), Some 59010302734375000000); ((36, 53), Some 52140197753906250000); ((36, 54), Some 56100000000000000000); ((36, 55), Some 63540100097656250000); ((36, 56), Some 51875201416015630000); ((36, 57), Some 59845697021484380000); ((36, 58), Some 59670001220703120000); ((36, 59), Some 59030297851562500000); ((36, 60), Some 45145599365234376000)];
  [((37, 1), Some 70460400390625010000); ((37, 2), Some 48350100708007810000); ((37, 3), Some 55355603027343750000); ((37, 4), Some 62955401611328130000); ((37, 5), Some 58140399169921870000); ((37, 6), Some 48655899047851560000); ((37, 7), Some 53905798339843750000); ((37, 8), Some 65445001220703120000); ((37, 9), Some 58435900878906260000); ((37, 10), Some 53980200195312500000); ((37, 11), Some 66760498046875010000); ((37, 12), Some 52385302734375000000); ((37, 13), Some 57705603027343750000); ((37, 14), Some 53920300292968750000); ((37, 15), Some 54550201416015630000); ((37, 16), Some 55980603027343760000); ((37, 17), Some 59745300292968760000); ((37, 18), Some 61979998779296880000); ((37, 19), Some 49430599975585940000); ((37, 20), Some 56825799560546880000); ((37, 21), Some 51710699462890620000); ((37, 22), Some 58855902099609380000); ((37, 23), Some 56200701904296870000); ((37, 24), Some 54155603027343760000); ((37, 25), Some 52055798339843750000); ((37, 26), Some 52630297851562500000); ((37, 27), Some 55165698242187500000); ((37, 28), Some 54830401611328130000); ((37, 29), Some 57370098876953130000); ((37, 30), Some 55005102539062510000); ((37, 31), Some 52765502929687510000); ((37, 32), Some 50360101318359380000); ((37, 33), Some 62180200195312510000); ((37, 34), Some 56080200195312500000); ((37, 35), Some 52565802001953130000); ((37, 36), Some 54050897216796870000); ((37, 37), Some 57175701904296880000); ((37, 38), Some 62515197753906250000); ((37, 39), Some 58295898437500010000); ((37, 40), Some 52175799560546880000); ((37, 41), Some 48715798950195310000); ((37, 42), Some 57430297851562500000); ((37, 43), Some 49415798950195310000); ((37, 44), Some 53300500488281250000); ((37, 45), Some 57740600585937500000); ((37, 46), Some 45625000000000000000); ((37, 47), Some 47765100097656250000); ((37, 48), Some 62360498046875010000); ((37, 49), Some 50215701293945320000); ((37, 50), Some 56690899658203130000); ((37, 51), Some 41530099487304690000); ((37, 52), Some 55204998779296880000); ((37, 53), Some 55530200195312500000); ((37, 54), Some 47539999389648440000); ((37, 55), Some 60415197753906250000); ((37, 56), Some 55715600585937510000); ((37, 57), Some 48740301513671880000); ((37, 58), Some 54000701904296880000); ((37, 59), Some 47930599975585940000); ((37, 60), Some 43055899047851565000)];
  [((38, 1), Some 60770800781250000000); ((38, 2), Some 58230102539062500000); ((38, 3), Some 54804998779296880000); ((38, 4), Some 54610900878906260000); ((38, 5), Some 53170697021484380000); ((38, 6), Some 50900299072265630000); ((38, 7), Some 58405401611328120000); ((38, 8), Some 50895401000976560000); ((38, 9), Some 55925799560546880000); ((38, 10), Some 70500201416015630000); ((38, 11), Some 50450100708007810000); ((38, 12), Some 58205700683593760000); ((38, 13), Some 52845001220703130000); ((38, 14), Some 51160299682617190000); ((38, 15), Some 60640600585937510000); ((38, 16), Some 50705899047851570000); ((38, 17), Some 59835498046875010000); ((38, 18), Some 59995300292968750000); ((38, 19), Some 46645401000976564000); ((38, 20), Some 45725900268554690000); ((38, 21), Some 59175897216796880000); ((38, 22), Some 50900698852539070000); ((38, 23), Some 63765502929687510000); ((38, 24), Some 55640197753906250000); ((38, 25), Some 47125601196289070000); ((38, 26), Some 46450299072265630000); ((38, 27), Some 44770300292968754000); ((38, 28), Some 58605499267578130000); ((38, 29), Some 50555599975585940000); ((38, 30), Some 44590399169921880000); ((38, 31), Some 42850900268554690000); ((38, 32), Some 63640600585937500000); ((38, 33), Some 43640301513671880000); ((38, 34), Some 49265600585937500000); ((38, 35), Some 48990301513671870000); ((38, 36), Some 47845199584960940000); ((38, 37), Some 48800601196289070000); ((38, 38), Some 49740899658203130000); ((38, 39), Some 40780801391601567000); ((38, 40), Some 41485299682617190000); ((38, 41), Some 50630599975585940000); ((38, 42), Some 59940802001953130000); ((38, 43), Some 45615600585937505000); ((38, 44), Some 46735000610351567000); ((38, 45), Some 47070199584960940000); ((38, 46), Some 51115798950195310000); ((38, 47), Some 47520901489257820000); ((38, 48), Some 43520001220703130000); ((38, 49), Some 49620098876953130000); ((38, 50), Some 52290002441406250000); ((38, 51), Some 56290301513671880000); ((38, 52), Some 50670001220703130000); ((38, 53), Some 53010400390625000000); ((38, 54), Some 59970898437500000000); ((38, 55), Some 68659997558593750000); ((38, 56), Some 48554998779296870000); ((38, 57), Some 62740301513671880000); ((38, 58), Some 42900399780273440000); ((38, 59), Some 120000004768371580); ((38, 60), Some 50800698852539070000)];
  [((39, 1), Some 49915499877929690000); ((39, 2), Some 62700799560546880000); ((39, 3), Some 57175201416015630000); ((39, 4), Some 56565301513671880000); ((39, 5), Some 69630297851562510000); ((39, 6), Some 59220098876953120000); ((39, 7), Some 60600598144531250000); ((39, 8), Some 58970202636718750000); ((39, 9), Some 74705499267578130000); ((39, 10), Some 54450201416015630000); ((39, 11), Some 65365698242187500000); ((39, 12), Some 67700701904296880000); ((39, 13), Some 57345001220703130000); ((39, 14), Some 51500097656250010000); ((39, 15), Some 63095501708984380000); ((39, 16), Some 61840002441406250000); ((39, 17), Some 66800097656250000000); ((39, 18), Some 69625097656250000000); ((39, 19), Some 44145800781250000000); ((39, 20), Some 63655603027343750000); ((39, 21), Some 51955102539062500000); ((39, 23), Some 50025399780273440000); ((39, 24), Some 63600897216796880000); ((39, 25), Some 44135900878906250000); ((39, 26), Some 56380798339843760000); ((39, 27), Some 59135400390625010000); ((39, 28), Some 59735101318359380000); ((39, 29), Some 53904998779296870000); ((39, 30), Some 59365100097656250000); ((39, 31), Some 59085400390625000000); ((39, 32), Some 61250897216796880000); ((39, 33), Some 53510498046875010000); ((39, 34), Some 43270901489257816000); ((39, 35), Some 49520098876953130000); ((39, 36), Some 55710601806640630000); ((39, 37), Some 44605899047851565000); ((39, 38), Some 45379998779296880000); ((39, 39), Some 47725500488281260000); ((39, 40), Some 54650201416015630000); ((39, 41), Some 51484997558593750000); ((39, 42), Some 53680603027343750000); ((39, 43), Some 51830200195312500000); ((39, 44), Some 47180801391601566000); ((39, 45), Some 53570898437500000000); ((39, 46), Some 48355300903320320000); ((39, 47), Some 61015802001953130000); ((39, 48), Some 54420501708984380000); ((39, 49), Some 53860400390625000000); ((39, 50), Some 54625097656250010000); ((39, 51), Some 51340301513671880000); ((39, 52), Some 53840899658203130000); ((39, 53), Some 57185498046875010000); ((39, 54), Some 37800900268554690000); ((39, 55), Some 53095397949218760000); ((39, 56), Some 56225201416015620000); ((39, 57), Some 56735302734375000000); ((39, 58), Some 57245898437500000000); ((39, 59), Some 38904998779296875000); ((39, 60), Some 51305499267578130000)];
  [((40, 1), Some 56815100097656250000); ((40, 2), Some 59845001220703130000); ((40, 3), Some 71660601806640630000); ((40, 4), Some 60860797119140630000); ((40, 5), Some 61380102539062510000); ((40, 6), Some 66925598144531250000); ((40, 7), Some 45605499267578127000); ((40, 8), Some 52405499267578130000); ((40, 9), Some 56555798339843750000); ((40, 10), Some 62345697021484380000); ((40, 11), Some 53845697021484380000); ((40, 12), Some 48975500488281260000); ((40, 13), Some 58165197753906250000); ((40, 14), Some 48105099487304690000); ((40, 15), Some 66345098876953130000); ((40, 16), Some 59525402832031250000); ((40, 17), Some 63250000000000010000); ((40, 18), Some 43345098876953130000); ((40, 19), Some 44895401000976565000); ((40, 20), Some 58410198974609380000); ((40, 21), Some 47545700073242190000); ((40, 22), Some 63660900878906260000); ((40, 23), Some 44370498657226564000); ((40, 24), Some 55490502929687500000); ((40, 25), Some 55130200195312510000); ((40, 26), Some 53075097656250010000); ((40, 27), Some 53340698242187500000); ((40, 28), Some 63250598144531250000); ((40, 29), Some 45480300903320314000); ((40, 30), Some 55220898437500010000); ((40, 31), Some 41475299072265630000); ((40, 32), Some 59105102539062510000); ((40, 35), Some 44265301513671880000); ((40, 36), Some 52905902099609370000); ((40, 37), Some 51980902099609380000); ((40, 38), Some 44420199584960940000); ((40, 39), Some 49750399780273440000); ((40, 40), Some 51040600585937510000); ((40, 41), Some 50445300292968760000); ((40, 42), Some 46545901489257813000); ((40, 43), Some 53730902099609380000); ((40, 44), Some 54075299072265620000); ((40, 45), Some 58185797119140630000); ((40, 46), Some 39145800781250000000); ((40, 47), Some 46590399169921880000); ((40, 48), Some 48460299682617200000); ((40, 49), Some 58645697021484380000); ((40, 50), Some 58005499267578130000); ((40, 53), Some 47340100097656250000); ((40, 54), Some 56590002441406260000); ((40, 55), Some 48100399780273440000); ((40, 56), Some 54165197753906260000); ((40, 57), Some 49255899047851560000); ((40, 58), Some 51280798339843760000); ((40, 59), Some 49575100708007820000); ((40, 60), Some 47845901489257820000)];
  [((41, 1), Some 61420501708984380000); ((41, 2), Some 60760498046875000000); ((41, 3), Some 57325500488281250000); ((41, 4), Some 57440197753906250000); ((41, 5), Some 62415301513671880000); ((41, 6), Some 63295001220703130000); ((41, 7), Some 53550299072265630000); ((41, 8), Some 55400402832031250000); ((41, 9), Some 54505798339843750000); ((41, 10), Some 55220800781250010000); ((41, 11), Some 52775701904296880000); ((41, 12), Some 59995098876953130000); ((41, 13), Some 61025402832031250000); ((41, 14), Some 48130599975585940000); ((41, 15), Some 59970202636718750000); ((41, 16), Some 52590802001953130000); ((41, 17), Some 59335900878906250000); ((41, 18), Some 48725500488281250000); ((41, 19), Some 69170397949218760000); ((41, 20), Some 45135800170898440000); ((41, 21), Some 57200402832031250000); ((41, 22), Some 57100097656250000000); ((41, 23), Some 56240502929687500000); ((41, 24), Some 49545498657226570000); ((41, 25), Some 49570599365234380000); ((41, 26), Some 52200500488281260000); ((41, 27), Some 48685299682617190000); ((41, 28), Some 54935601806640630000); ((41, 29), Some 56145098876953130000); ((41, 30), Some 62360302734375000000); ((41, 31), Some 51725598144531250000); ((41, 32), Some 62779998779296870000); ((41, 33), Some 46645001220703130000); ((41, 34), Some 48445098876953130000); ((41, 35), Some 50160900878906250000); ((41, 36), Some 56805499267578130000); ((41, 37), Some 48620199584960940000); ((41, 38), Some 58730297851562500000); ((41, 39), Some 49295498657226570000); ((41, 40), Some 46175000000000000000); ((41, 41), Some 57285900878906260000); ((41, 42), Some 54575799560546880000); ((41, 43), Some 62135900878906250000); ((41, 44), Some 57730102539062500000); ((41, 45), Some 53280499267578130000); ((41, 46), Some 53760797119140630000); ((41, 47), Some 46255801391601565000); ((41, 48), Some 50235900878906250000); ((41, 49), Some 43485800170898440000); ((41, 50), Some 47040600585937500000); ((41, 51), Some 57745300292968750000); ((41, 52), Some 47625698852539065000); ((41, 53), Some 47350000000000005000); ((41, 54), Some 44215301513671880000); ((41, 55), Some 51590197753906250000); ((41, 56), Some 49975000000000010000); ((41, 57), Some 57185601806640630000); ((41, 58), Some 45410299682617190000); ((41, 59), Some 48755300903320320000); ((41, 60), Some 49445401000976570000)];
  [((42, 1), Some 62480700683593750000); ((42, 2), Some 57345202636718750000); ((42, 3), Some 50610699462890630000); ((42, 4), Some 57715899658203130000); ((42, 5), Some 54340197753906250000); ((42, 6), Some 55130102539062500000); ((42, 7), Some 61885498046875000000); ((42, 8), Some 60255200195312500000); ((42, 9), Some 53850799560546880000); ((42, 10), Some 69665698242187510000); ((42, 11), Some 59455798339843760000); ((42, 12), Some 59665100097656260000); ((42, 13), Some 54550097656250000000); ((42, 14), Some 59895898437500000000); ((42, 15), Some 57385900878906250000); ((42, 16), Some 58235302734375000000); ((42, 17), Some 58165600585937500000); ((42, 18), Some 59690802001953120000); ((42, 19), Some 61040600585937500000); ((42, 20), Some 66475598144531250000); ((42, 21), Some 58135198974609380000); ((42, 22), Some 42350900268554690000); ((42, 23), Some 43010299682617190000); ((42, 24), Some 63090197753906250000); ((42, 25), Some 54704998779296880000); ((42, 26), Some 58059997558593750000); ((42, 27), Some 57025500488281260000); ((42, 28), Some 60595300292968760000); ((42, 29), Some 52840197753906250000); ((42, 30), Some 49905899047851560000); ((42, 31), Some 56255297851562510000); ((42, 32), Some 63475897216796880000); ((42, 33), Some 55690600585937510000); ((42, 34), Some 43075698852539067000); ((42, 35), Some 63930499267578130000); ((42, 36), Some 64655798339843760000); ((42, 37), Some 61710498046875000000); ((42, 38), Some 56375897216796880000); ((42, 39), Some 58585198974609380000); ((42, 40), Some 44945401000976563000); ((42, 41), Some 49785800170898440000); ((42, 42), Some 49345199584960940000); ((42, 43), Some 53745501708984380000); ((42, 44), Some 54685797119140630000); ((42, 45), Some 57265197753906260000); ((42, 46), Some 57545697021484380000); ((42, 49), Some 53525097656250000000); ((42, 50), Some 52025201416015630000); ((42, 51), Some 47270700073242190000); ((42, 52), Some 55465002441406260000); ((42, 53), Some 59295001220703130000); ((42, 54), Some 44695498657226567000); ((42, 55), Some 51850897216796880000); ((42, 56), Some 55970599365234370000); ((42, 57), Some 56815197753906260000); ((42, 58), Some 53740802001953130000); ((42, 59), Some 58305798339843750000); ((42, 60), Some 57280297851562500000)];
  [((43, 1), Some 58015197753906250000); ((43, 2), Some 54579998779296880000); ((43, 3), Some 59515600585937510000); ((43, 4), Some 54159997558593750000); ((43, 5), Some 64590502929687510000); ((43, 6), Some 57015399169921870000); ((43, 7), Some 80905200195312510000); ((43, 8), Some 58090002441406250000); ((43, 9), Some 68200897216796880000); ((43, 10), Some 70870098876953130000); ((43, 11), Some 73930200195312500000); ((43, 12), Some 63475500488281260000); ((43, 13), Some 57640002441406250000); ((43, 14), Some 52570202636718760000); ((43, 15), Some 60040802001953130000); ((43, 16), Some 69380102539062510000); ((43, 17), Some 61120001220703130000); ((43, 18), Some 53665100097656250000); ((43, 19), Some 67735900878906260000); ((43, 20), Some 67940100097656250000); ((43, 21), Some 66650500488281250000); ((43, 22), Some 55090698242187500000); ((43, 23), Some 55185900878906260000); ((43, 24), Some 57760900878906250000); ((43, 25), Some 63610797119140630000); ((43, 26), Some 62310400390625000000); ((43, 27), Some 62815899658203130000); ((43, 28), Some 59615698242187510000); ((43, 29), Some 55095001220703130000); ((43, 30), Some 67615698242187500000); ((43, 31), Some 51460101318359370000); ((43, 32), Some 64050402832031250000); ((43, 33), Some 59690502929687510000); ((43, 34), Some 55215802001953130000); ((43, 35), Some 67104998779296880000); ((43, 36), Some 65925299072265620000); ((43, 37), Some 62330798339843750000); ((43, 38), Some 65650402832031260000); ((43, 39), Some 65725201416015630000); ((43, 40), Some 46945901489257817000); ((43, 41), Some 62570001220703130000); ((43, 42), Some 58080200195312510000); ((43, 43), Some 58895001220703130000); ((43, 44), Some 59960302734375000000); ((43, 45), Some 56290600585937510000); ((43, 46), Some 72930902099609380000); ((43, 47), Some 59710101318359380000); ((43, 48), Some 54950402832031250000); ((43, 49), Some 59480700683593760000); ((43, 50), Some 54825598144531250000); ((43, 51), Some 61585498046875000000); ((43, 52), Some 64585198974609380000); ((43, 53), Some 67200097656250000000); ((43, 54), Some 41490798950195317000); ((43, 55), Some 75870202636718760000); ((43, 56), Some 56840698242187510000); ((43, 57), Some 59625097656250000000); ((43, 58), Some 44015499877929690000); ((43, 59), Some 52460400390625000000); ((43, 60), Some 61550598144531250000)];
  [((44, 1), Some 71380297851562500000); ((44, 2), Some 64450701904296880000); ((44, 3), Some 60750799560546880000); ((44, 4), Some 58345501708984380000); ((44, 5), Some 59415100097656260000); ((44, 6), Some 52135101318359380000); ((44, 7), Some 60950897216796870000); ((44, 8), Some 62890399169921880000); ((44, 9), Some 53200000000000000000); ((44, 10), Some 60910797119140630000); ((44, 11), Some 51330902099609380000); ((44, 12), Some 57790100097656250000); ((44, 13), Some 67355603027343750000); ((44, 14), Some 55895898437500010000); ((44, 15), Some 59115002441406260000); ((44, 16), Some 65800598144531250000); ((44, 17), Some 55920800781250010000); ((44, 18), Some 64125402832031250000); ((44, 19), Some 60400897216796870000); ((44, 20), Some 51815301513671870000); ((44, 21), Some 52300201416015630000); ((44, 22), Some 62835400390625010000); ((44, 23), Some 51745001220703130000); ((44, 24), Some 50825799560546870000); ((44, 27), Some 53885900878906250000); ((44, 28), Some 54809997558593750000); ((44, 29), Some 56825402832031250000); ((44, 30), Some 59360302734375000000); ((44, 31), Some 55925897216796880000); ((44, 32), Some 59975000000000010000); ((44, 33), Some 55355603027343750000); ((44, 34), Some 55645898437500010000); ((44, 35), Some 55220098876953130000); ((44, 36), Some 55115502929687500000); ((44, 37), Some 56335101318359380000); ((44, 38), Some 50030300903320320000); ((44, 39), Some 50285501098632820000); ((44, 40), Some 47045800781250000000); ((44, 41), Some 58470397949218760000); ((44, 42), Some 51350701904296880000); ((44, 43), Some 54155798339843750000); ((44, 44), Some 59785699462890630000); ((44, 45), Some 50390499877929690000); ((44, 46), Some 53470098876953130000); ((44, 49), Some 56130499267578120000); ((44, 50), Some 56485601806640630000); ((44, 51), Some 56395599365234370000); ((44, 52), Some 51250897216796880000); ((44, 53), Some 57220202636718760000); ((44, 54), Some 47590301513671880000); ((44, 55), Some 53455603027343760000); ((44, 56), Some 51930102539062510000); ((44, 57), Some 49805300903320310000); ((44, 58), Some 50175000000000000000); ((44, 59), Some 60945397949218750000); ((44, 60), Some 38125100708007813000)];
  [((45, 1), Some 71025897216796880000); ((45, 2), Some 57195898437500010000); ((45, 3), Some 59729998779296880000); ((45, 4), Some 64065399169921870000); ((45, 5), Some 59990600585937500000); ((45, 6), Some 64985101318359380000); ((45, 7), Some 62355603027343750000); ((45, 8), Some 66830603027343760000); ((45, 9), Some 56905401611328130000); ((45, 10), Some 63700598144531250000); ((45, 11), Some 53350897216796870000); ((45, 12), Some 58175299072265620000); ((45, 13), Some 64434997558593750000); ((45, 14), Some 69160699462890630000); ((45, 15), Some 54290698242187510000); ((45, 16), Some 45010299682617190000); ((45, 17), Some 43445098876953130000); ((45, 18), Some 64275299072265630000); ((45, 19), None); ((45, 20), Some 57550000000000000000); ((45, 21), Some 46620599365234376000); ((45, 22), Some 48205499267578130000); ((45, 23), Some 66900299072265630000); ((45, 24), Some 53655102539062500000); ((45, 25), Some 42445098876953130000); ((45, 26), Some 71034997558593750000); ((45, 27), Some 51955297851562500000); ((45, 28), Some 51540899658203130000); ((45, 29), Some 46035198974609376000); ((45, 30), Some 55955401611328130000); ((45, 31), Some 53210498046875010000); ((45, 32), Some 44515100097656250000); ((45, 33), Some 62865197753906250000); ((45, 34), Some 54485400390625010000); ((45, 35), Some 45540899658203126000); ((45, 36), Some 49760000610351560000); ((45, 37), Some 63480200195312500000); ((45, 38), Some 50025100708007810000); ((45, 39), Some 66230297851562510000); ((45, 40), Some 63575299072265630000); ((45, 41), Some 55200598144531250000); ((45, 42), Some 54425000000000000000); ((45, 43), Some 59025897216796880000); ((45, 44), Some 47450100708007814000); ((45, 45), Some 60254998779296880000); ((45, 46), Some 46590899658203126000); ((45, 47), Some 47120199584960940000); ((45, 48), Some 53920001220703130000); ((45, 49), Some 58115502929687510000); ((45, 50), Some 55940698242187500000); ((45, 51), Some 56075897216796880000); ((45, 52), Some 57915002441406250000); ((45, 53), Some 59075598144531250000); ((45, 54), Some 58410900878906260000); ((45, 55), Some 60640600585937510000); ((45, 56), Some 55095098876953130000); ((45, 57), Some 56715600585937510000); ((45, 58), Some 62310400390625000000); ((45, 59), Some 53875500488281250000); ((45, 60), Some 55305200195312500000)];
  [((46, 1), Some 65334997558593760000); ((46, 2), Some 61535302734375000000); ((46, 3), Some 65085601806640630000); ((46, 4), Some 48175601196289060000); ((46, 5), Some 53080902099609380000); ((46, 6), Some 46550698852539063000); ((46, 7), Some 54640197753906250000); ((46, 8), Some 69425000000000010000); ((46, 9), Some 58625897216796880000); ((46, 10), Some 65010198974609380000); ((46, 11), Some 51000201416015620000); ((46, 12), Some 55010400390625000000); ((46, 13), Some 52600897216796880000); ((46, 14), Some 70380700683593750000); ((46, 15), Some 54820800781250010000); ((46, 16), Some 57245898437500000000); ((46, 17), Some 65690301513671880000); ((46, 18), Some 58984997558593750000); ((46, 19), Some 64555700683593760000); ((46, 20), Some 52090698242187500000); ((46, 21), Some 63410198974609380000); ((46, 22), Some 48025601196289060000); ((46, 23), Some 63260400390625010000); ((46, 24), Some 52210797119140630000); ((46, 25), Some 42185800170898440000); ((46, 26), Some 60385900878906260000); ((46, 27), Some 56300000000000000000); ((46, 28), Some 53150897216796880000); ((46, 29), Some 49975799560546870000); ((46, 30), Some 53675598144531250000); ((46, 31), Some 50710900878906250000); ((46, 32), Some 52380102539062500000); ((46, 33), Some 60380603027343750000); ((46, 34), Some 53295397949218750000); ((46, 35), Some 48565499877929690000); ((46, 36), Some 58025799560546870000); ((46, 37), Some 53835601806640620000); ((46, 38), Some 57465100097656250000); ((46, 39), Some 54240002441406250000); ((46, 40), Some 51630297851562500000); ((46, 41), Some 50120300292968750000); ((46, 42), Some 50970401000976570000); ((46, 43), Some 48530398559570310000); ((46, 44), Some 54450799560546880000); ((46, 45), Some 46795498657226566000); ((46, 46), Some 58300201416015630000); ((46, 47), Some 53660699462890630000); ((46, 48), Some 49265399169921870000); ((46, 49), Some 58555102539062510000); ((46, 50), Some 57090197753906250000); ((46, 51), Some 58880902099609380000); ((46, 52), Some 53980401611328130000); ((46, 53), Some 50410000610351570000); ((46, 54), Some 46055300903320315000); ((46, 55), Some 63335101318359380000); ((46, 56), Some 60060900878906250000); ((46, 57), Some 64675000000000000000); ((46, 58), Some 53245898437500010000); ((46, 59), Some 49670199584960940000); ((46, 60), Some 53020501708984370000)];
  [((47, 1), Some 74565399169921880000); ((47, 2), Some 71800701904296880000); ((47, 3), Some 78525299072265630000); ((47, 4), Some 42955099487304690000); ((47, 5), Some 62710101318359380000); ((47, 6), Some 66850701904296880000); ((47, 7), Some 68090301513671880000); ((47, 8), Some 62365002441406260000); ((47, 9), Some 70625897216796880000); ((47, 10), Some 60460101318359380000); ((47, 11), Some 65350701904296880000); ((47, 12), Some 69055700683593760000); ((47, 13), Some 49860800170898440000); ((47, 14), Some 55384997558593750000); ((47, 15), Some 57720898437500010000); ((47, 16), Some 74600598144531260000); ((47, 17), Some 65600299072265630000); ((47, 18), Some 48340600585937500000); ((47, 19), Some 52440100097656250000); ((47, 20), Some 58275500488281260000); ((47, 21), Some 71520599365234380000); ((47, 22), Some 71510101318359380000); ((47, 23), Some 66275598144531260000); ((47, 24), Some 55235198974609370000); ((47, 25), Some 69805200195312510000); ((47, 26), Some 56520202636718760000); ((47, 27), Some 51775000000000000000); ((47, 28), Some 55070697021484380000); ((47, 29), Some 56110498046875000000); ((47, 30), Some 59990802001953130000); ((47, 31), Some 60785101318359380000); ((47, 32), Some 52405401611328130000); ((47, 33), Some 61840802001953130000); ((47, 34), Some 48990499877929690000); ((47, 35), Some 53270501708984380000); ((47, 36), Some 53255102539062500000); ((47, 37), Some 52890802001953130000); ((47, 38), Some 51830700683593750000); ((47, 39), Some 44975698852539067000); ((47, 40), Some 42460198974609377000); ((47, 41), Some 54129998779296880000); ((47, 42), Some 61295300292968760000); ((47, 43), Some 46985800170898440000); ((47, 44), Some 49725601196289060000); ((47, 45), Some 50605499267578130000); ((47, 46), Some 45815301513671880000); ((47, 47), Some 51325402832031250000); ((47, 48), Some 41150299072265626000); ((47, 49), Some 65260601806640620000); ((47, 50), Some 58470599365234380000); ((47, 51), Some 58285400390625000000); ((47, 52), Some 52545800781250010000); ((47, 53), Some 46260000610351570000); ((47, 54), Some 53140100097656250000); ((47, 57), Some 58735198974609380000); ((47, 58), Some 61155297851562510000); ((47, 59), Some 59375701904296880000); ((47, 60), Some 50975698852539060000)];
  [((48, 1), Some 55675799560546880000); ((48, 2), Some 71845397949218760000); ((48, 3), Some 70980297851562500000); ((48, 4), Some 59895202636718760000); ((48, 5), Some 76565301513671880000); ((48, 6), Some 61790802001953130000); ((48, 7), Some 52045697021484380000); ((48, 8), Some 64710101318359370000); ((48, 9), Some 54260498046875000000); ((48, 10), Some 56825799560546880000); ((48, 11), Some 58925701904296880000); ((48, 12), Some 53340399169921870000); ((48, 13), Some 74870599365234380000); ((48, 14), Some 52905200195312500000); ((48, 15), Some 73665600585937500000); ((48, 16), Some 67300299072265630000); ((48, 17), Some 71915899658203130000); ((48, 18), Some 46160101318359380000); ((48, 19), Some 54065399169921870000); ((48, 20), Some 62365600585937500000); ((48, 21), Some 53285198974609380000); ((48, 22), Some 51000698852539060000); ((48, 23), Some 56645800781250010000); ((48, 24), Some 63415301513671880000); ((48, 25), Some 63755603027343760000); ((48, 26), Some 56865698242187500000); ((48, 27), Some 51985900878906250000); ((48, 28), Some 41400500488281254000); ((48, 29), Some 68035302734375010000); ((48, 30), Some 47215899658203130000); ((48, 31), Some 50725500488281250000); ((48, 32), Some 53710498046875000000); ((48, 33), Some 56920599365234380000); ((48, 34), Some 66600402832031260000); ((48, 35), Some 68175201416015630000); ((48, 36), Some 55250500488281250000); ((48, 37), Some 53275201416015630000); ((48, 38), Some 57580902099609380000); ((48, 39), Some 57140197753906260000); ((48, 40), Some 60075201416015630000); ((48, 41), Some 56480297851562500000); ((48, 42), Some 57415002441406260000); ((48, 43), Some 54204998779296880000); ((48, 44), Some 48345498657226560000); ((48, 45), Some 55715698242187510000); ((48, 46), Some 52665899658203130000); ((48, 47), Some 51865399169921880000); ((48, 48), Some 57870697021484380000); ((48, 49), Some 60120898437500010000); ((48, 50), Some 47415899658203130000); ((48, 51), Some 74500097656250010000); ((48, 52), Some 54905297851562500000); ((48, 53), Some 55420300292968750000); ((48, 54), Some 50855398559570320000); ((48, 55), Some 60054998779296880000); ((48, 56), Some 46600100708007814000); ((48, 57), Some 63865899658203130000); ((48, 58), Some 51925299072265630000); ((48, 59), Some 53130102539062500000); ((48, 60), Some 50100399780273440000)];
  [((49, 1), Some 55040002441406260000); ((49, 2), Some 55865100097656260000); ((49, 3), Some 69610498046875000000); ((49, 4), Some 60295001220703130000); ((49, 5), Some 73605902099609380000); ((49, 6), Some 59435900878906260000); ((49, 7), Some 60070800781250000000); ((49, 8), Some 56000299072265630000); ((49, 9), Some 49685900878906260000); ((49, 10), Some 58085699462890630000); ((49, 11), Some 58130798339843750000); ((49, 12), Some 59920898437500000000); ((49, 13), Some 58640100097656250000); ((49, 14), Some 64180902099609370000); ((49, 15), Some 60055798339843760000); ((49, 16), Some 58625701904296880000); ((49, 17), Some 43005200195312500000); ((49, 18), Some 59495202636718760000); ((49, 19), Some 64910797119140630000); ((49, 20), Some 64275097656250000000); ((49, 21), Some 48660800170898440000); ((49, 22), Some 48665899658203120000); ((49, 23), Some 61460900878906250000); ((49, 24), Some 61305102539062500000); ((49, 25), Some 60175201416015620000); ((49, 26), Some 49125299072265630000); ((49, 27), Some 57150897216796870000); ((49, 28), Some 53890399169921880000); ((49, 29), Some 48025399780273440000); ((49, 30), Some 50895098876953120000); ((49, 31), Some 57620501708984380000); ((49, 32), Some 51625299072265630000); ((49, 33), Some 44910299682617190000); ((49, 34), Some 50085800170898440000); ((49, 35), Some 57435101318359380000); ((49, 36), Some 60670599365234380000); ((49, 37), Some 41129998779296880000); ((49, 38), Some 42800399780273440000); ((49, 39), Some 56470697021484380000); ((49, 40), Some 48975100708007820000); ((49, 41), Some 49529998779296870000); ((49, 42), Some 55755700683593750000); ((49, 43), Some 59220697021484380000); ((49, 44), Some 45280300903320315000); ((49, 45), Some 61265502929687500000); ((49, 46), Some 61555798339843760000); ((49, 47), Some 51315100097656250000); ((49, 48), Some 40760800170898440000); ((49, 49), Some 58145001220703130000); ((49, 50), Some 51930798339843750000); ((49, 51), Some 55395300292968760000); ((49, 52), Some 52370098876953130000); ((49, 53), Some 48150000000000010000); ((49, 54), Some 55935797119140630000); ((49, 57), Some 51475299072265630000); ((49, 58), Some 48800000000000000000); ((49, 59), Some 48720300292968750000); ((49, 60), Some 52000701904296880000)];
  [((50, 1), Some 46175000000000000000); ((50, 2), Some 65005603027343760000); ((50, 3), Some 49405599975585940000); ((50, 4), Some 56000000000000000000); ((50, 5), Some 68665002441406250000); ((50, 6), Some 48035598754882810000); ((50, 7), Some 59325201416015620000); ((50, 8), Some 55845202636718760000); ((50, 9), Some 55995898437500000000); ((50, 10), Some 48020901489257820000); ((50, 11), Some 62440698242187510000); ((50, 12), Some 56210302734375010000); ((50, 13), Some 54770098876953130000); ((50, 14), Some 69585498046875010000); ((50, 15), Some 55965002441406250000); ((50, 16), Some 49625299072265630000); ((50, 17), Some 47140798950195320000); ((50, 18), Some 50650100708007820000); ((50, 19), Some 47405599975585940000); ((50, 20), Some 55080297851562500000); ((50, 21), Some 48515899658203130000); ((50, 22), Some 67800701904296880000); ((50, 23), Some 43180801391601567000); ((50, 24), Some 53415100097656250000); ((50, 25), Some 47070300292968750000); ((50, 26), Some 45065200805664070000); ((50, 27), Some 45500799560546876000); ((50, 28), Some 46270901489257814000); ((50, 29), Some 60225897216796880000); ((50, 30), Some 42170700073242190000); ((50, 31), Some 59870800781250010000); ((50, 32), Some 46879998779296876000); ((50, 33), Some 55705200195312510000); ((50, 34), Some 59625299072265630000); ((50, 35), Some 57650000000000000000); ((50, 37), Some 46755801391601566000); ((50, 38), Some 50535000610351570000); ((50, 39), Some 46880300903320313000); ((50, 40), Some 55295599365234380000); ((50, 41), Some 49839999389648440000); ((50, 42), Some 49890200805664060000); ((50, 43), Some 46850601196289063000); ((50, 44), Some 57645898437500000000); ((50, 45), Some 55585101318359380000); ((50, 46), Some 46765798950195316000); ((50, 47), Some 50845001220703130000); ((50, 48), Some 41195498657226564000); ((50, 49), Some 46845300292968750000); ((50, 50), Some 50095300292968750000); ((50, 51), Some 55835400390625000000); ((50, 52), Some 38650900268554690000); ((50, 53), Some 48030599975585940000); ((50, 54), Some 56695098876953120000); ((50, 55), Some 65575201416015630000); ((50, 56), Some 48200698852539070000); ((50, 57), Some 59755102539062500000); ((50, 58), Some 55950402832031250000); ((50, 59), Some 49300399780273440000); ((50, 60), Some 38235800170898440000)];
  [((51, 1), Some 53435302734375000000); ((51, 2), Some 57300299072265630000); ((51, 3), Some 74955297851562500000); ((51, 4), Some 63365399169921870000); ((51, 5), Some 57180700683593750000); ((51, 6), Some 58765698242187500000); ((51, 7), Some 70135101318359380000); ((51, 8), Some 60310101318359380000); ((51, 9), Some 57515502929687500000); ((51, 10), Some 54804998779296880000); ((51, 11), Some 63345501708984380000); ((51, 12), Some 66195898437500010000); ((51, 13), Some 52690600585937500000); ((51, 14), Some 51065899658203120000); ((51, 15), Some 61935699462890630000); ((51, 16), Some 59280603027343750000); ((51, 17), Some 49485699462890630000); ((51, 18), Some 47580599975585940000); ((51, 19), Some 48325100708007810000); ((51, 20), Some 67050097656250000000); ((51, 21), Some 54745397949218750000); ((51, 22), Some 52655102539062500000); ((51, 23), Some 65930700683593750000); ((51, 24), Some 46840200805664063000); ((51, 25), Some 62055700683593750000); ((51, 26), Some 50725698852539060000); ((51, 27), Some 52320397949218750000); ((51, 28), Some 67429998779296870000); ((51, 29), Some 66575500488281260000); ((51, 30), Some 55560302734375000000); ((51, 31), Some 44100698852539064000); ((51, 32), Some 50275601196289060000); ((51, 33), Some 63235699462890630000); ((51, 34), Some 50125201416015630000); ((51, 35), Some 57170202636718750000); ((51, 36), Some 45570800781250000000); ((51, 37), Some 55130700683593760000); ((51, 38), Some 44065798950195314000); ((51, 39), Some 58705102539062500000); ((51, 40), Some 44305499267578130000); ((51, 41), Some 45635900878906253000); ((51, 42), Some 57740002441406260000); ((51, 43), Some 47830700683593750000); ((51, 44), Some 46604998779296877000); ((51, 45), Some 48815499877929700000); ((51, 46), Some 58925201416015630000); ((51, 47), Some 54384997558593750000); ((51, 48), Some 47665399169921876000); ((51, 49), Some 61504998779296870000); ((51, 50), Some 58270300292968750000); ((51, 51), Some 48880499267578130000); ((51, 52), Some 47805899047851560000); ((51, 53), Some 49435101318359380000); ((51, 54), Some 47200698852539064000); ((51, 55), Some 59995501708984380000); ((51, 56), Some 46335699462890630000); ((51, 57), Some 55920300292968750000); ((51, 58), Some 45365301513671876000); ((51, 59), Some 50385699462890630000); ((51, 60), Some 53700097656250000000)];
  [((52, 1), Some 63680700683593750000); ((52, 2), Some 71250799560546880000); ((52, 3), Some 74955401611328130000); ((52, 4), Some 71345697021484380000); ((52, 5), Some 64560198974609380000); ((52, 6), Some 69209997558593750000); ((52, 7), Some 49315200805664060000); ((52, 8), Some 56830401611328130000); ((52, 9), Some 61650799560546880000); ((52, 10), Some 58595898437500010000); ((52, 11), Some 68355798339843760000); ((52, 12), Some 75184997558593750000); ((52, 13), Some 61930798339843750000); ((52, 14), Some 55400799560546880000); ((52, 15), Some 63535400390625010000); ((52, 16), Some 68735400390625010000); ((52, 17), Some 66000402832031250000); ((52, 18), Some 57515899658203130000); ((52, 19), Some 72910601806640630000); ((52, 20), Some 51365100097656260000); ((52, 21), Some 69600500488281250000); ((52, 22), Some 52625097656250010000); ((52, 23), Some 56320098876953130000); ((52, 24), Some 64860900878906250000); ((52, 25), Some 59215399169921880000); ((52, 26), Some 63575701904296880000); ((52, 27), Some 58720397949218760000); ((52, 28), Some 60240698242187500000); ((52, 29), Some 57305700683593750000); ((52, 30), Some 50410000610351570000); ((52, 31), Some 59065600585937500000); ((52, 32), Some 52310601806640630000); ((52, 33), Some 58780700683593760000); ((52, 34), Some 51215600585937510000); ((52, 35), Some 55670397949218750000); ((52, 36), Some 50795098876953130000); ((52, 37), Some 67190197753906250000); ((52, 38), Some 56255200195312510000); ((52, 39), Some 58985601806640630000); ((52, 40), Some 58100799560546880000); ((52, 41), Some 54360601806640630000); ((52, 42), Some 61240899658203130000); ((52, 43), Some 62365197753906250000); ((52, 44), Some 59565002441406260000); ((52, 45), Some 53490002441406260000); ((52, 46), Some 43325100708007817000); ((52, 47), Some 55855700683593750000); ((52, 48), Some 44085800170898440000); ((52, 49), Some 47940301513671880000); ((52, 50), Some 41805899047851566000); ((52, 51), Some 61295697021484370000); ((52, 52), Some 58730499267578130000); ((52, 53), Some 53740100097656260000); ((52, 54), Some 48710501098632820000); ((52, 55), Some 46564999389648440000); ((52, 56), Some 55080297851562500000); ((52, 57), Some 56585302734375000000); ((52, 58), Some 62815698242187500000); ((52, 59), Some 53180401611328130000); ((52, 60), Some 40250299072265630000)];
  [((53, 1), Some 63915100097656260000); ((53, 2), Some 53355200195312500000); ((53, 3), Some 58765399169921880000); ((53, 4), Some 63985400390625000000); ((53, 5), Some 63435400390625000000); ((53, 6), Some 62245800781250000000); ((53, 7), Some 69180297851562500000); ((53, 8), Some 53990802001953130000); ((53, 9), Some 60690502929687510000); ((53, 10), Some 55330902099609380000); ((53, 11), Some 54205700683593750000); ((53, 12), Some 69945397949218750000); ((53, 13), Some 70355700683593760000); ((53, 14), Some 60980700683593750000); ((53, 15), Some 61685797119140620000); ((53, 16), Some 63280902099609380000); ((53, 19), Some 65350299072265630000); ((53, 20), Some 54995898437500000000); ((53, 21), Some 65315698242187500000); ((53, 22), Some 67555200195312510000); ((53, 23), Some 64220599365234380000); ((53, 24), Some 58855401611328130000); ((53, 25), Some 62225701904296880000); ((53, 26), Some 55145397949218750000); ((53, 27), Some 66125097656250000000); ((53, 28), Some 52285498046875000000); ((53, 29), Some 62140802001953130000); ((53, 30), Some 52630798339843750000); ((53, 31), Some 59895697021484370000); ((53, 32), Some 59379998779296880000); ((53, 33), Some 48579998779296880000); ((53, 34), Some 62840698242187500000); ((53, 35), Some 55870501708984380000); ((53, 36), Some 58605603027343750000); ((53, 37), Some 61725701904296880000); ((53, 38), Some 60820098876953130000); ((53, 39), Some 54975897216796880000); ((53, 40), Some 50790899658203120000); ((53, 41), Some 55130297851562510000); ((53, 42), Some 55210400390625010000); ((53, 43), Some 58415502929687510000); ((53, 44), Some 51270397949218760000); ((53, 45), Some 59500897216796880000); ((53, 46), Some 51965100097656250000); ((53, 47), Some 49895401000976570000); ((53, 48), Some 64265600585937500000); ((53, 49), Some 57420300292968750000); ((53, 50), Some 55995898437500000000); ((53, 51), Some 54845300292968750000); ((53, 52), Some 53010498046875000000); ((53, 53), Some 50675698852539060000); ((53, 54), Some 51110699462890630000); ((53, 55), Some 47410299682617190000); ((53, 56), Some 53500000000000010000); ((53, 57), Some 58829998779296870000); ((53, 58), Some 42760198974609380000); ((53, 59), Some 48285400390625010000); ((53, 60), Some 43615899658203130000)];
  [((54, 1), Some 61745202636718760000); ((54, 2), Some 59330499267578130000); ((54, 3), Some 66715100097656260000); ((54, 4), Some 50125299072265620000); ((54, 5), Some 66730200195312500000); ((54, 6), Some 57540600585937510000); ((54, 7), Some 51940399169921870000); ((54, 8), Some 51940100097656260000); ((54, 9), Some 49595001220703130000); ((54, 10), Some 67660601806640620000); ((54, 11), Some 47615399169921877000); ((54, 12), Some 44555899047851566000); ((54, 13), Some 56240399169921880000); ((54, 14), Some 57879998779296880000); ((54, 15), Some 59165698242187500000); ((54, 16), Some 71890197753906260000); ((54, 17), Some 54870697021484380000); ((54, 18), Some 70975897216796880000); ((54, 19), Some 57529998779296880000); ((54, 20), Some 44360800170898440000); ((54, 21), Some 52865600585937500000); ((54, 22), Some 60930297851562500000); ((54, 23), Some 68785400390625000000); ((54, 24), Some 53825799560546880000); ((54, 25), Some 43975399780273440000); ((54, 26), Some 46950000000000000000); ((54, 27), Some 55900598144531250000); ((54, 28), Some 59235198974609380000); ((54, 29), Some 43190499877929690000); ((54, 30), Some 50875399780273440000); ((54, 31), Some 63670001220703130000); ((54, 32), Some 53710400390625000000); ((54, 33), Some 48305499267578130000); ((54, 34), Some 64145697021484380000); ((54, 35), Some 54535601806640620000); ((54, 36), Some 47750900268554690000); ((54, 37), Some 49735900878906250000); ((54, 38), Some 46840798950195316000); ((54, 39), Some 50020001220703130000); ((54, 40), Some 50010800170898440000); ((54, 41), Some 40420700073242190000); ((54, 42), Some 53300598144531250000); ((54, 43), Some 57360400390625000000); ((54, 44), Some 50190301513671880000); ((54, 45), Some 55140301513671880000); ((54, 46), Some 48590100097656250000); ((54, 48), Some 45990200805664063000); ((54, 49), Some 52865600585937500000); ((54, 50), Some 59105200195312510000); ((54, 51), Some 47625299072265626000); ((54, 52), Some 55520397949218760000); ((54, 53), Some 54810498046875000000); ((54, 54), Some 54275299072265630000); ((54, 55), Some 40090600585937503000); ((54, 56), Some 48600201416015620000); ((54, 57), Some 44785800170898440000); ((54, 58), Some 51415002441406250000); ((54, 59), Some 52720599365234370000); ((54, 60), Some 45425201416015630000)];
  [((55, 1), Some 60095800781250000000); ((55, 2), Some 59895397949218760000); ((55, 3), Some 62320599365234380000); ((55, 4), Some 65575598144531260000); ((55, 5), Some 61104998779296880000); ((55, 6), Some 63835198974609380000); ((55, 7), Some 68940502929687500000); ((55, 8), Some 60805200195312500000); ((55, 9), Some 64840698242187510000); ((55, 10), Some 57665100097656250000); ((55, 11), Some 58460400390625010000); ((55, 12), Some 60600097656250000000); ((55, 13), Some 63975000000000000000); ((55, 14), Some 61745599365234370000); ((55, 15), Some 55775402832031260000); ((55, 16), Some 54390399169921880000); ((55, 17), Some 61460101318359370000); ((55, 18), Some 60050402832031250000); ((55, 19), Some 54259997558593750000); ((55, 20), Some 57865197753906250000); ((55, 21), Some 55190002441406260000); ((55, 22), Some 60750897216796880000); ((55, 23), Some 54625701904296880000); ((55, 24), Some 62750799560546880000); ((55, 25), Some 58100701904296880000); ((55, 26), Some 57280200195312500000); ((55, 27), Some 58355297851562510000); ((55, 28), Some 59730902099609380000); ((55, 29), Some 58470898437500010000); ((55, 30), Some 51800402832031260000); ((55, 31), Some 51720001220703130000); ((55, 32), Some 58970697021484380000); ((55, 33), Some 59155200195312500000); ((55, 34), Some 53370001220703130000); ((55, 35), Some 60555200195312500000); ((55, 36), Some 45150299072265630000); ((55, 37), Some 58125201416015630000); ((55, 38), Some 47585400390625000000); ((55, 39), Some 47235299682617190000); ((55, 40), Some 59445800781250010000); ((55, 41), Some 48225000000000000000); ((55, 42), Some 52545697021484380000); ((55, 43), Some 46570300292968750000); ((55, 44), Some 48390499877929700000); ((55, 45), Some 62145098876953130000); ((55, 46), Some 61025598144531250000); ((55, 47), Some 55245397949218760000); ((55, 48), Some 57735101318359380000); ((55, 49), Some 49515600585937510000); ((55, 50), Some 48430499267578130000); ((55, 51), Some 58025402832031260000); ((55, 52), Some 56575201416015630000); ((55, 53), Some 52550799560546880000); ((55, 54), Some 54815197753906250000); ((55, 55), Some 46739999389648440000); ((55, 56), Some 43035101318359376000); ((55, 57), Some 61320202636718760000); ((55, 58), Some 53650799560546870000); ((55, 59), Some 47675201416015630000); ((55, 60), Some 45455398559570314000)];
  [((56, 1), Some 61585601806640620000); ((56, 2), Some 63030798339843750000); ((56, 3), Some 51955499267578130000); ((56, 4), Some 64570202636718760000); ((56, 5), Some 56715301513671880000); ((56, 6), Some 60590301513671880000); ((56, 7), Some 59365301513671880000); ((56, 8), Some 62610601806640630000); ((56, 9), Some 70715301513671870000); ((56, 10), Some 71570397949218760000); ((56, 11), Some 62865301513671880000); ((56, 12), Some 69325299072265630000); ((56, 13), Some 51884997558593750000); ((56, 14), Some 63080798339843750000); ((56, 15), Some 59990600585937500000); ((56, 16), Some 61055102539062510000); ((56, 17), Some 59850201416015630000); ((56, 18), Some 55475500488281260000); ((56, 19), Some 64115301513671880000); ((56, 20), Some 68325598144531250000); ((56, 21), Some 53480700683593750000); ((56, 22), Some 51460797119140630000); ((56, 23), Some 53700897216796880000); ((56, 24), Some 68970898437500000000); ((56, 25), Some 55325299072265630000); ((56, 26), Some 55880401611328120000); ((56, 27), Some 56140802001953130000); ((56, 28), Some 59985400390625010000); ((56, 29), Some 51815197753906250000); ((56, 30), Some 54765802001953120000); ((56, 31), Some 65690399169921880000); ((56, 32), Some 41880599975585940000); ((56, 33), Some 39980499267578130000); ((56, 34), Some 60930700683593750000); ((56, 35), Some 49405398559570310000); ((56, 36), Some 51855297851562510000); ((56, 37), Some 52835900878906250000); ((56, 38), Some 52455700683593760000); ((56, 39), Some 53370800781250000000); ((56, 40), Some 60245697021484380000); ((56, 41), Some 50205200195312510000); ((56, 42), Some 44825399780273440000); ((56, 43), Some 54080401611328130000); ((56, 44), Some 43600000000000004000); ((56, 45), Some 54359997558593760000); ((56, 46), Some 47860598754882820000); ((56, 47), Some 63830401611328130000); ((56, 48), Some 50970098876953130000); ((56, 49), Some 48929998779296880000); ((56, 50), Some 53750701904296880000); ((56, 51), Some 66610699462890630000); ((56, 52), Some 65140802001953130000); ((56, 53), Some 52435601806640620000); ((56, 54), Some 49210000610351560000); ((56, 55), Some 39595199584960940000); ((56, 56), Some 50870901489257820000); ((56, 57), Some 64825799560546880000); ((56, 58), Some 51880798339843750000); ((56, 59), Some 38575299072265630000); ((56, 60), Some 57535601806640630000)];
  [((57, 1), Some 51440600585937500000); ((57, 2), Some 69040197753906250000); ((57, 3), Some 64385797119140630000); ((57, 4), Some 64745800781250000000); ((57, 5), Some 62730700683593760000); ((57, 6), Some 69095501708984370000); ((57, 7), Some 68160101318359380000); ((57, 8), Some 52360498046875010000); ((57, 9), Some 67775799560546880000); ((57, 10), Some 46170401000976565000); ((57, 11), Some 67725500488281260000); ((57, 12), Some 60485797119140630000); ((57, 13), Some 65985101318359370000); ((57, 14), Some 74485797119140630000); ((57, 15), Some 64130401611328130000); ((57, 16), Some 69190698242187500000); ((57, 17), Some 58260797119140630000); ((57, 18), Some 43515399169921876000); ((57, 19), Some 67875097656250010000); ((57, 20), Some 55350299072265620000); ((57, 21), Some 60435498046875000000); ((57, 22), Some 49910299682617190000); ((57, 23), Some 56215899658203130000); ((57, 24), Some 49230398559570310000); ((57, 25), Some 56760400390625010000); ((57, 26), Some 61829998779296880000); ((57, 27), Some 57530700683593760000); ((57, 28), Some 60050701904296880000); ((57, 29), Some 58885797119140630000); ((57, 30), Some 45345199584960940000); ((57, 31), Some 55125402832031250000); ((57, 32), Some 56479998779296880000); ((57, 33), Some 46355599975585943000); ((57, 34), Some 58050598144531250000); ((57, 35), Some 55025299072265630000); ((57, 36), Some 54640100097656250000); ((57, 37), Some 52890301513671880000); ((57, 38), Some 49104998779296870000); ((57, 39), Some 51865002441406250000); ((57, 40), Some 59090698242187510000); ((57, 41), Some 52240802001953130000); ((57, 42), Some 52975897216796880000); ((57, 43), Some 53530401611328130000); ((57, 44), Some 53005700683593760000); ((57, 45), Some 41515100097656253000); ((57, 46), Some 50615100097656250000); ((57, 47), Some 69690502929687510000); ((57, 48), Some 62665002441406260000); ((57, 49), Some 40080599975585940000); ((57, 50), Some 52540698242187500000); ((57, 51), Some 49815499877929690000); ((57, 52), Some 57125201416015630000); ((57, 53), Some 59775201416015630000); ((57, 54), Some 41064999389648440000); ((57, 55), Some 48635598754882810000); ((57, 56), Some 60529998779296870000); ((57, 57), Some 44155398559570317000); ((57, 58), Some 41080099487304690000); ((57, 59), Some 49375100708007820000); ((57, 60), Some 63955798339843760000)];
  [((58, 1), Some 64760601806640630000); ((58, 2), Some 69615002441406250000); ((58, 3), Some 61810400390625000000); ((58, 4), Some 51979998779296880000); ((58, 5), Some 61975097656250000000); ((58, 6), Some 57320300292968750000); ((58, 7), Some 70925402832031250000); ((58, 8), Some 68225299072265630000); ((58, 9), Some 65475299072265630000); ((58, 10), Some 52285601806640620000); ((58, 11), Some 59520599365234380000); ((58, 12), Some 65245397949218760000); ((58, 13), Some 64150097656250000000); ((58, 14), Some 59755401611328130000); ((58, 15), Some 71210601806640630000); ((58, 16), Some 50995401000976570000); ((58, 17), Some 58670397949218750000); ((58, 18), Some 55290399169921880000); ((58, 19), Some 62155200195312500000); ((58, 20), Some 72740899658203130000); ((58, 21), Some 49625201416015630000); ((58, 22), Some 47410000610351564000); ((58, 23), Some 62635900878906250000); ((58, 24), Some 56425897216796880000); ((58, 25), Some 48680300903320310000); ((58, 26), Some 53895599365234380000); ((58, 27), Some 55750897216796870000); ((58, 28), Some 65050000000000010000); ((58, 29), Some 60175201416015620000); ((58, 30), Some 55125299072265630000); ((58, 31), Some 59810797119140630000); ((58, 32), Some 64210302734375000000); ((58, 33), Some 57350299072265630000); ((58, 34), Some 45150799560546876000); ((58, 35), Some 52455297851562510000); ((58, 36), Some 43800000000000003000); ((58, 37), Some 55560198974609380000); ((58, 38), Some 60720501708984380000); ((58, 39), Some 46180099487304690000); ((58, 40), Some 60675201416015630000); ((58, 41), Some 43085101318359380000); ((58, 42), Some 55990802001953130000); ((58, 43), Some 58220501708984380000); ((58, 44), Some 55805603027343750000); ((58, 45), Some 54540600585937500000); ((58, 46), Some 51605798339843750000); ((58, 47), Some 54290197753906260000); ((58, 48), Some 58790802001953130000); ((58, 49), Some 61215100097656260000); ((58, 50), Some 51960198974609380000); ((58, 51), Some 66685797119140630000); ((58, 52), Some 46065899658203130000); ((58, 53), Some 51340899658203130000); ((58, 54), Some 55675701904296880000); ((58, 55), Some 53529998779296880000); ((58, 56), Some 53910302734375000000); ((58, 57), Some 55720098876953130000); ((58, 58), Some 49850399780273440000); ((58, 59), Some 54815802001953130000); ((58, 60), Some 54050097656250010000)];
  [((59, 1), Some 68484997558593760000); ((59, 2), Some 69170098876953130000); ((59, 3), Some 61890899658203130000); ((59, 4), Some 61090698242187500000); ((59, 5), Some 56825299072265630000); ((59, 6), Some 43025299072265630000); ((59, 7), Some 72340899658203130000); ((59, 8), Some 64260198974609370000); ((59, 9), Some 44065899658203127000); ((59, 10), Some 44930801391601566000); ((59, 11), Some 61290600585937500000); ((59, 12), Some 48655300903320320000); ((59, 13), Some 53415899658203130000); ((59, 14), Some 49230899047851560000); ((59, 15), Some 43100601196289067000); ((59, 16), Some 62170800781250000000); ((59, 17), Some 60054998779296880000); ((59, 18), Some 58930798339843750000); ((59, 19), Some 48175799560546880000); ((59, 20), Some 53305902099609380000); ((59, 21), Some 66545397949218750000); ((59, 22), Some 43355099487304690000); ((59, 23), Some 52210198974609380000); ((59, 24), Some 46695199584960943000); ((59, 25), Some 58060101318359380000); ((59, 26), Some 60260400390625000000); ((59, 27), Some 56600701904296880000); ((59, 28), Some 60770898437500000000); ((59, 29), Some 51385498046875010000); ((59, 30), Some 52145098876953130000); ((59, 31), Some 67820599365234380000); ((59, 32), Some 51600299072265630000); ((59, 33), Some 56490899658203130000); ((59, 34), Some 58335498046875000000); ((59, 35), Some 57105603027343760000); ((59, 36), Some 57435198974609380000); ((59, 37), Some 46770199584960940000); ((59, 38), Some 43790798950195315000); ((59, 39), Some 46250601196289066000); ((59, 40), Some 41875201416015626000); ((59, 41), Some 45630300903320315000); ((59, 42), Some 45210101318359376000); ((59, 43), Some 54280401611328130000); ((59, 44), Some 42795498657226570000); ((59, 47), Some 46110101318359380000); ((59, 48), Some 49500900268554690000); ((59, 49), Some 51415802001953130000); ((59, 50), Some 52965399169921880000); ((59, 51), Some 44775399780273440000); ((59, 52), Some 56590899658203130000); ((59, 53), Some 45925601196289070000); ((59, 54), Some 47735400390625010000); ((59, 55), Some 41570700073242190000); ((59, 56), Some 43500399780273440000); ((59, 57), Some 54930401611328130000); ((59, 58), Some 53290100097656250000); ((59, 59), Some 58729998779296880000); ((59, 60), Some 60455401611328130000)];
  [((60, 1), Some 80340399169921880000); ((60, 2), Some 60750000000000000000); ((60, 3), Some 69240197753906260000); ((60, 4), Some 48575000000000010000); ((60, 5), Some 64565502929687500000); ((60, 6), Some 67305798339843750000); ((60, 7), Some 69775097656250000000); ((60, 8), Some 54195501708984380000); ((60, 9), Some 62465301513671880000); ((60, 10), Some 63815197753906250000); ((60, 11), Some 67870697021484380000); ((60, 12), Some 60605200195312500000); ((60, 13), Some 49155801391601570000); ((60, 14), Some 40560400390625000000); ((60, 15), Some 56625402832031260000); ((60, 16), Some 62495098876953130000); ((60, 17), Some 64305297851562500000); ((60, 18), Some 58305297851562500000); ((60, 19), Some 53350299072265630000); ((60, 20), Some 58685601806640630000); ((60, 21), Some 62390002441406260000); ((60, 22), Some 53420501708984380000); ((60, 23), Some 57370300292968760000); ((60, 24), Some 59555297851562500000); ((60, 25), Some 61955297851562500000); ((60, 26), Some 45210800170898440000); ((60, 27), Some 53405401611328130000); ((60, 28), Some 61605902099609380000); ((60, 29), Some 54645001220703130000); ((60, 30), Some 59635900878906250000); ((60, 31), Some 54135601806640630000); ((60, 32), Some 55935198974609380000); ((60, 33), Some 46700601196289070000); ((60, 34), Some 50445001220703130000); ((60, 35), Some 53665802001953130000); ((60, 36), Some 52955499267578130000); ((60, 37), Some 54225402832031260000); ((60, 38), Some 50250500488281260000); ((60, 39), Some 53595697021484380000); ((60, 40), Some 52220300292968750000); ((60, 41), Some 49155499267578130000); ((60, 42), Some 52750500488281250000); ((60, 43), Some 48210299682617190000); ((60, 44), Some 58855603027343750000); ((60, 45), Some 38714999389648440000); ((60, 46), Some 54305603027343760000); ((60, 47), Some 53170599365234380000); ((60, 48), Some 59415301513671880000); ((60, 49), Some 55915100097656250000); ((60, 50), Some 53540301513671880000); ((60, 51), Some 52035797119140630000); ((60, 52), Some 50660598754882820000); ((60, 53), Some 55275201416015630000); ((60, 54), Some 51840899658203130000); ((60, 55), Some 120000004768371580); ((60, 56), Some 47940399169921880000); ((60, 57), Some 49800900268554690000); ((60, 58), Some 47505700683593750000); ((60, 59), Some 54340002441406260000); ((60, 60), Some 48139999389648440000)];
  [((61, 1), Some 71570001220703130000); ((61, 2), Some 71425299072265620000); ((61, 3), Some 58565502929687510000); ((61, 4), Some 57960900878906250000); ((61, 5), Some 63715301513671880000); ((61, 6), Some 60309997558593750000); ((61, 7), Some 60905798339843750000); ((61, 8), Some 74965002441406250000); ((61, 9), Some 61120697021484380000); ((61, 10), Some 73765100097656260000); ((61, 11), Some 53300097656250000000); ((61, 12), Some 60710101318359380000); ((61, 13), Some 57845697021484380000); ((61, 14), Some 58350799560546880000); ((61, 15), Some 61490197753906260000); ((61, 16), Some 48635101318359370000); ((61, 17), Some 68990502929687510000); ((61, 18), Some 61690002441406260000); ((61, 19), Some 60600000000000000000); ((61, 20), Some 51695800781250010000); ((61, 21), Some 48705801391601560000); ((61, 22), Some 56055102539062500000); ((61, 23), Some 63690002441406250000); ((61, 24), Some 52870001220703130000); ((61, 25), Some 41845098876953126000); ((61, 26), Some 53659997558593760000); ((61, 27), Some 57580297851562500000); ((61, 28), Some 58130297851562500000); ((61, 29), Some 54305401611328130000); ((61, 30), Some 48140899658203130000); ((61, 31), Some 53320300292968750000); ((61, 32), Some 44610000610351566000); ((61, 33), Some 60325897216796880000); ((61, 34), Some 54545898437500000000); ((61, 35), Some 53510198974609380000); ((61, 36), Some 55370599365234380000); ((61, 37), Some 48350799560546880000); ((61, 38), Some 47480700683593755000); ((61, 39), Some 49550900268554690000); ((61, 40), Some 41395800781250000000); ((61, 41), Some 58545300292968750000); ((61, 42), Some 61870397949218760000); ((61, 43), Some 54950097656250000000); ((61, 44), Some 49190399169921880000); ((61, 45), Some 57945098876953120000); ((61, 46), Some 53355297851562500000); ((61, 47), Some 47770001220703130000); ((61, 48), Some 57155603027343750000); ((61, 49), Some 64510302734375000000); ((61, 50), Some 60540002441406260000); ((61, 51), Some 55750701904296880000); ((61, 52), Some 54865197753906260000); ((61, 53), Some 53465301513671880000); ((61, 54), Some 58300299072265630000); ((61, 55), Some 49455599975585940000); ((61, 56), Some 53420300292968760000); ((61, 57), Some 49235501098632820000); ((61, 58), Some 57895397949218760000); ((61, 59), Some 64495098876953130000); ((61, 60), Some 54780499267578130000)];
  [((62, 1), Some 70080499267578130000); ((62, 2), Some 71245800781250000000); ((62, 3), Some 64525799560546880000); ((62, 4), Some 65445599365234380000); ((62, 5), Some 73190600585937510000); ((62, 6), Some 60310601806640630000); ((62, 7), Some 63645501708984380000); ((62, 8), Some 64260198974609370000); ((62, 9), Some 66965802001953130000); ((62, 10), Some 62015100097656250000); ((62, 11), Some 52395501708984380000); ((62, 12), Some 54995202636718760000); ((62, 13), Some 64510699462890630000); ((62, 14), Some 60175201416015620000); ((62, 15), Some 66060699462890630000); ((62, 16), Some 66410601806640630000); ((62, 17), Some 50350299072265630000); ((62, 18), Some 64885498046875000000); ((62, 19), Some 54325701904296880000); ((62, 20), Some 58030102539062500000); ((62, 21), Some 53940002441406250000); ((62, 22), Some 52890399169921880000); ((62, 23), Some 64915301513671880000); ((62, 24), Some 52345800781250000000); ((62, 25), Some 59710699462890630000); ((62, 26), Some 51855700683593760000); ((62, 27), Some 57440698242187500000); ((62, 28), Some 48035101318359380000); ((62, 29), Some 49985299682617190000); ((62, 30), Some 55475897216796880000); ((62, 31), Some 60180902099609380000); ((62, 32), Some 59545397949218750000); ((62, 33), Some 57265399169921880000); ((62, 34), Some 59450799560546880000); ((62, 35), Some 50600399780273440000); ((62, 36), Some 58470202636718750000); ((62, 37), Some 61520098876953130000); ((62, 38), Some 55425799560546880000); ((62, 39), Some 50755700683593760000); ((62, 40), Some 41540600585937500000); ((62, 41), Some 61460101318359370000); ((62, 42), Some 54125500488281250000); ((62, 43), Some 46900698852539063000); ((62, 44), Some 59585797119140620000); ((62, 45), Some 54870397949218750000); ((62, 46), Some 53210101318359380000); ((62, 47), Some 52070697021484380000); ((62, 48), Some 52520697021484380000); ((62, 49), Some 53000402832031250000); ((62, 50), Some 62670898437500010000); ((62, 51), Some 45785501098632815000); ((62, 52), Some 46600000000000000000); ((62, 53), Some 44735400390625003000); ((62, 54), Some 49340399169921880000); ((62, 55), Some 53170599365234380000); ((62, 56), Some 50395498657226570000); ((62, 57), Some 47305801391601565000); ((62, 58), Some 47990301513671880000); ((62, 59), Some 47164999389648440000); ((62, 60), Some 45325900268554690000)];
  [((63, 1), Some 48180499267578130000); ((63, 2), Some 59230102539062510000); ((63, 3), Some 51480902099609370000); ((63, 4), Some 73825897216796880000); ((63, 5), Some 59655499267578120000); ((63, 6), Some 49335501098632810000); ((63, 7), Some 45915100097656250000); ((63, 8), Some 66580499267578130000); ((63, 9), Some 56905902099609380000); ((63, 10), Some 50565100097656250000); ((63, 11), Some 57345001220703130000); ((63, 12), Some 56320800781250000000); ((63, 13), Some 50810501098632820000); ((63, 14), Some 56420800781250000000); ((63, 15), Some 53220300292968750000); ((63, 16), Some 57900799560546880000); ((63, 17), Some 62905200195312510000); ((63, 18), Some 54690899658203130000); ((63, 19), Some 54725897216796880000); ((63, 20), Some 58830603027343750000); ((63, 21), Some 55984997558593750000); ((63, 22), Some 48300000000000010000); ((63, 23), Some 45800698852539065000); ((63, 24), Some 67785400390625010000); ((63, 25), Some 59980401611328130000); ((63, 26), Some 58300799560546870000); ((63, 27), Some 67070800781250010000); ((63, 28), Some 49270901489257820000); ((63, 29), Some 60060198974609380000); ((63, 30), Some 60100299072265630000); ((63, 31), Some 56135198974609380000); ((63, 32), Some 47955099487304700000); ((63, 33), Some 55630102539062500000); ((63, 34), Some 49755801391601570000); ((63, 35), Some 52160400390625000000); ((63, 36), Some 58805798339843750000); ((63, 37), Some 62380200195312500000); ((63, 38), Some 53010400390625000000); ((63, 39), Some 56870800781250000000); ((63, 40), Some 53425201416015630000); ((63, 41), Some 55900097656250010000); ((63, 42), Some 42425799560546880000); ((63, 43), Some 47620901489257814000); ((63, 44), Some 60965002441406260000); ((63, 45), Some 49985598754882820000); ((63, 46), Some 57075799560546880000); ((63, 47), Some 55160498046875000000); ((63, 48), Some 47145001220703126000); ((63, 49), Some 51235101318359380000); ((63, 50), Some 41540600585937500000); ((63, 51), Some 54975799560546880000); ((63, 52), Some 55920397949218760000); ((63, 53), Some 52800299072265630000); ((63, 54), Some 45250201416015626000); ((63, 55), Some 65640002441406260000); ((63, 56), Some 54710900878906250000); ((63, 57), Some 44225100708007816000); ((63, 58), Some 55275701904296880000); ((63, 59), Some 37775698852539066000); ((63, 60), Some 58845800781250000000)];
  [((64, 1), Some 65015399169921880000); ((64, 2), Some 52970202636718750000); ((64, 3), Some 59575402832031260000); ((64, 4), Some 62695001220703130000); ((64, 5), Some 44215701293945313000); ((64, 6), Some 54265399169921880000); ((64, 7), Some 69300701904296880000); ((64, 8), Some 63395397949218760000); ((64, 9), Some 57709997558593750000); ((64, 10), Some 68220397949218760000); ((64, 11), Some 49060598754882810000); ((64, 12), Some 55075897216796880000); ((64, 13), Some 60570898437500010000); ((64, 14), Some 66600500488281260000); ((64, 15), Some 60065600585937510000); ((64, 16), Some 63125799560546880000); ((64, 17), Some 58890002441406250000); ((64, 18), Some 60785699462890630000); ((64, 19), Some 62870501708984380000); ((64, 20), Some 62185797119140630000); ((64, 21), Some 59150598144531250000); ((64, 22), Some 60480102539062500000); ((64, 23), Some 49100100708007820000); ((64, 24), Some 52970397949218760000); ((64, 25), Some 53060699462890630000); ((64, 26), Some 52735601806640630000); ((64, 27), Some 50675100708007820000); ((64, 28), Some 63095898437500010000); ((64, 29), Some 60905297851562510000); ((64, 30), Some 55400500488281250000); ((64, 31), Some 64450799560546880000); ((64, 32), Some 51565197753906250000); ((64, 33), Some 63075701904296880000); ((64, 34), Some 61175299072265630000); ((64, 35), Some 54420800781250000000); ((64, 36), Some 41520199584960940000); ((64, 37), Some 43610699462890630000); ((64, 38), Some 55270898437500000000); ((64, 39), Some 55525598144531250000); ((64, 40), Some 44695599365234380000); ((64, 41), Some 53195501708984380000); ((64, 42), Some 52270397949218760000); ((64, 43), Some 56655603027343750000); ((64, 44), Some 52720397949218750000); ((64, 45), Some 72880499267578130000); ((64, 46), Some 59905798339843760000); ((64, 47), Some 45320300292968750000); ((64, 48), Some 48685598754882820000); ((64, 49), Some 63145300292968760000); ((64, 50), Some 59095800781250000000); ((64, 51), Some 55630297851562500000); ((64, 52), Some 50500698852539070000); ((64, 53), Some 54240600585937500000); ((64, 54), Some 40945498657226566000); ((64, 55), Some 47870599365234380000); ((64, 56), Some 57020098876953130000); ((64, 57), Some 51545300292968750000); ((64, 58), Some 67880401611328130000); ((64, 59), Some 49715100097656250000); ((64, 60), Some 47715701293945310000)];
  [((65, 1), Some 54395800781250010000); ((65, 2), Some 60505798339843750000); ((65, 3), Some 74215100097656260000); ((65, 4), Some 62115197753906250000); ((65, 5), Some 70225799560546880000); ((65, 6), Some 65510900878906260000); ((65, 7), Some 52715600585937500000); ((65, 8), Some 60395202636718750000); ((65, 9), Some 62210699462890630000); ((65, 10), Some 56385699462890630000); ((65, 11), Some 63635601806640630000); ((65, 12), Some 66110900878906250000); ((65, 13), Some 62830700683593750000); ((65, 14), Some 58654998779296880000); ((65, 15), Some 62920697021484380000); ((65, 16), Some 59410198974609380000); ((65, 17), Some 60110400390625000000); ((65, 18), Some 61965502929687500000); ((65, 19), Some 51285101318359380000); ((65, 20), Some 65465899658203120000); ((65, 21), Some 52435797119140630000); ((65, 22), Some 41710101318359380000); ((65, 23), Some 64950097656250000000); ((65, 24), Some 53055401611328120000); ((65, 25), Some 64015600585937510000); ((65, 26), Some 72165301513671880000); ((65, 27), Some 68830603027343760000); ((65, 28), Some 49830300903320310000); ((65, 29), Some 45995599365234377000); ((65, 30), Some 59595397949218760000); ((65, 31), Some 49545901489257820000); ((65, 32), Some 50525000000000010000); ((65, 33), Some 50830099487304690000); ((65, 34), Some 46885299682617190000); ((65, 35), Some 62455401611328130000); ((65, 36), Some 52710797119140630000); ((65, 37), Some 60440600585937500000); ((65, 38), Some 41100601196289065000); ((65, 39), Some 63740002441406250000); ((65, 40), Some 66395397949218750000); ((65, 41), Some 42165600585937500000); ((65, 42), Some 60570098876953130000); ((65, 43), Some 47205099487304690000); ((65, 44), Some 49550100708007820000); ((65, 45), Some 63625701904296880000); ((65, 46), Some 63675097656250000000); ((65, 47), Some 38940600585937500000); ((65, 48), Some 56930499267578130000); ((65, 49), Some 50970001220703130000); ((65, 50), Some 58810101318359380000); ((65, 51), Some 62365399169921870000); ((65, 52), Some 42370800781250005000); ((65, 53), Some 56250598144531250000); ((65, 54), Some 45120901489257817000); ((65, 55), Some 52370300292968750000); ((65, 56), Some 60909997558593750000); ((65, 57), Some 60785101318359380000); ((65, 58), Some 47455200195312500000); ((65, 59), Some 48125000000000000000); ((65, 60), Some 45840100097656255000)];
  [((66, 1), Some 70180603027343750000); ((66, 2), Some 60665002441406260000); ((66, 3), Some 55285101318359380000); ((66, 4), Some 60580200195312500000); ((66, 5), Some 60740399169921880000); ((66, 6), Some 51585601806640620000); ((66, 7), Some 60315399169921880000); ((66, 8), Some 73234997558593760000); ((66, 9), Some 61250402832031260000); ((66, 10), Some 64940002441406260000); ((66, 11), Some 56670098876953130000); ((66, 12), Some 68435797119140630000); ((66, 13), Some 69025000000000010000); ((66, 14), Some 64810498046875000000); ((66, 15), Some 64015002441406250000); ((66, 16), Some 45945498657226566000); ((66, 17), Some 53000701904296880000); ((66, 18), Some 51779998779296870000); ((66, 19), Some 54865399169921880000); ((66, 20), Some 52355700683593750000); ((66, 21), Some 44045498657226566000); ((66, 22), Some 52595599365234380000); ((66, 23), Some 54800000000000000000); ((66, 24), Some 51570202636718750000); ((66, 25), Some 45600299072265627000); ((66, 26), Some 62155700683593760000); ((66, 27), Some 57855401611328120000); ((66, 28), Some 48860000610351570000); ((66, 29), Some 45350900268554690000); ((66, 30), Some 62220001220703130000); ((66, 31), Some 66705200195312510000); ((66, 32), Some 64165698242187510000); ((66, 35), Some 48200500488281250000); ((66, 36), Some 65755200195312500000); ((66, 37), Some 48955099487304690000); ((66, 38), Some 57675402832031250000); ((66, 39), Some 60475299072265630000); ((66, 40), Some 47815600585937510000); ((66, 41), Some 58140600585937500000); ((66, 42), Some 40200399780273440000); ((66, 43), Some 59095202636718750000); ((66, 44), Some 53470800781250000000); ((66, 47), Some 54665197753906250000); ((66, 48), Some 49120498657226570000); ((66, 49), Some 52960699462890620000); ((66, 50), Some 58510400390625000000); ((66, 51), Some 43435900878906250000); ((66, 52), Some 50045199584960950000); ((66, 53), Some 61635601806640630000); ((66, 54), Some 60805603027343750000); ((66, 55), Some 46660299682617193000); ((66, 56), Some 55040802001953120000); ((66, 57), Some 44940798950195316000); ((66, 58), Some 61120800781250000000); ((66, 59), Some 49575299072265620000); ((66, 60), Some 67970599365234380000)];
  [((67, 1), Some 52390399169921880000); ((67, 2), Some 83700299072265630000); ((67, 3), Some 71750500488281250000); ((67, 4), Some 72715502929687500000); ((67, 5), Some 78385101318359370000); ((67, 6), Some 50000100708007820000); ((67, 7), Some 50140499877929690000); ((67, 8), Some 59090600585937510000); ((67, 9), Some 58865502929687500000); ((67, 10), Some 49320199584960940000); ((67, 11), Some 49700100708007820000); ((67, 12), Some 51030599975585940000); ((67, 13), Some 67060601806640630000); ((67, 14), Some 58804998779296880000); ((67, 15), Some 73040502929687500000); ((67, 16), Some 60300701904296870000); ((67, 17), Some 55045001220703130000); ((67, 18), Some 59210302734375000000); ((67, 19), Some 59655297851562500000); ((67, 20), Some 63230798339843750000); ((67, 21), Some 59100598144531260000); ((67, 22), Some 55360699462890620000); ((67, 23), Some 52745501708984370000); ((67, 24), Some 55900598144531250000); ((67, 25), Some 54885101318359380000); ((67, 26), Some 52350000000000000000); ((67, 27), Some 62305700683593760000); ((67, 28), Some 56225897216796880000); ((67, 29), Some 61580297851562510000); ((67, 30), Some 49270700073242190000); ((67, 31), Some 49460299682617190000); ((67, 32), Some 47270901489257815000); ((67, 33), Some 52210699462890630000); ((67, 34), Some 44285400390625000000); ((67, 35), Some 53155902099609380000); ((67, 36), Some 59365399169921880000); ((67, 37), Some 50075698852539070000); ((67, 38), Some 43115899658203130000); ((67, 39), Some 48970700073242190000); ((67, 40), Some 54815802001953130000); ((67, 41), Some 52620098876953130000); ((67, 42), Some 56760900878906260000); ((67, 43), Some 47885800170898440000); ((67, 44), Some 60820898437500000000); ((67, 45), Some 45655599975585940000); ((67, 46), Some 64455798339843750000); ((67, 47), Some 53435198974609380000); ((67, 48), Some 49850100708007820000); ((67, 49), Some 58080700683593760000); ((67, 50), Some 49130300903320310000); ((67, 51), Some 48405499267578130000); ((67, 52), Some 58295300292968750000); ((67, 53), Some 56025897216796870000); ((67, 54), Some 59945697021484380000); ((67, 55), Some 51075500488281260000); ((67, 56), Some 52235498046875010000); ((67, 57), Some 56580902099609380000); ((67, 58), Some 54020599365234380000); ((67, 59), Some 64720898437500000000); ((67, 60), Some 64645697021484380000)];
  [((68, 1), Some 61985601806640630000); ((68, 2), Some 73770001220703120000); ((68, 3), Some 68070001220703130000); ((68, 4), Some 76000897216796880000); ((68, 5), Some 59610601806640620000); ((68, 6), Some 69520098876953120000); ((68, 7), Some 62775097656250010000); ((68, 8), Some 68610400390625010000); ((68, 9), Some 74405102539062500000); ((68, 10), Some 56815899658203130000); ((68, 11), Some 62685498046875010000); ((68, 12), Some 54775299072265630000); ((68, 13), Some 68255700683593760000); ((68, 14), Some 61795001220703130000); ((68, 15), Some 56720501708984380000); ((68, 16), Some 61085601806640630000); ((68, 17), Some 63640502929687510000); ((68, 18), Some 62175299072265630000); ((68, 19), Some 58825000000000000000); ((68, 20), Some 68220300292968760000); ((68, 21), Some 66410900878906250000); ((68, 22), Some 60465002441406250000); ((68, 23), Some 57910198974609380000); ((68, 24), Some 57185198974609380000); ((68, 25), Some 69465899658203130000); ((68, 26), Some 61570599365234380000); ((68, 27), Some 59920001220703130000); ((68, 28), Some 49285299682617190000); ((68, 29), Some 61795001220703130000); ((68, 30), Some 64110601806640630000); ((68, 31), Some 58460601806640630000); ((68, 32), Some 61420397949218760000); ((68, 33), Some 56445300292968750000); ((68, 34), Some 60690600585937500000); ((68, 35), Some 54750897216796870000); ((68, 36), Some 55900701904296880000); ((68, 37), Some 60100897216796880000); ((68, 38), Some 49915499877929690000); ((68, 39), Some 59135101318359380000); ((68, 40), Some 57725897216796870000); ((68, 41), Some 56170898437500010000); ((68, 42), Some 120000004768371580); ((68, 43), Some 67020599365234380000); ((68, 44), Some 60900500488281250000); ((68, 45), Some 53515502929687500000); ((68, 46), Some 55995300292968750000); ((68, 47), Some 55115600585937500000); ((68, 48), Some 53710797119140630000); ((68, 49), Some 56050897216796880000); ((68, 50), Some 59315301513671880000); ((68, 51), Some 55680700683593760000); ((68, 52), Some 58425000000000010000); ((68, 53), Some 45325000000000000000); ((68, 54), Some 56985302734375000000); ((68, 55), Some 56625701904296870000); ((68, 56), Some 50300000000000000000); ((68, 57), Some 43525299072265630000); ((68, 58), Some 49565200805664060000); ((68, 59), Some 53200701904296880000); ((68, 60), Some 45715499877929690000)];
  [((69, 1), Some 58290899658203130000); ((69, 2), Some 70780102539062510000); ((69, 3), Some 68205401611328130000); ((69, 4), Some 59035498046875000000); ((69, 5), Some 66960101318359380000); ((69, 6), Some 56450500488281260000); ((69, 7), Some 58435601806640630000); ((69, 8), Some 64465002441406260000); ((69, 9), Some 57865100097656260000); ((69, 10), Some 57550897216796880000); ((69, 11), Some 62555102539062500000); ((69, 12), Some 64509997558593760000); ((69, 13), Some 46070300292968750000); ((69, 14), Some 57650701904296880000); ((69, 15), Some 49990899658203130000); ((69, 16), Some 70320300292968760000); ((69, 17), Some 66635400390625010000); ((69, 18), Some 52745898437500000000); ((69, 19), Some 60420098876953130000); ((69, 20), Some 51470501708984370000); ((69, 21), Some 49470300292968760000); ((69, 22), Some 57955200195312510000); ((69, 25), Some 50725000000000000000); ((69, 26), Some 55305902099609370000); ((69, 27), Some 59640301513671880000); ((69, 28), Some 56250000000000000000); ((69, 29), Some 63985699462890630000); ((69, 30), Some 52975299072265630000); ((69, 31), Some 48400100708007820000); ((69, 32), Some 53705499267578130000); ((69, 33), Some 55805902099609380000); ((69, 34), Some 48055099487304690000); ((69, 35), Some 50455398559570320000); ((69, 36), Some 54795599365234380000); ((69, 37), Some 51125000000000010000); ((69, 38), Some 55760699462890630000); ((69, 39), Some 49830200195312500000); ((69, 40), Some 64380499267578130000); ((69, 41), Some 65260198974609370000); ((69, 42), Some 66225201416015620000); ((69, 43), Some 54655603027343750000); ((69, 45), Some 61705499267578130000); ((69, 46), Some 52615698242187500000); ((69, 49), Some 59250799560546880000); ((69, 50), Some 56995300292968750000); ((69, 51), Some 55670501708984380000); ((69, 52), Some 56140698242187500000); ((69, 53), Some 59445800781250010000); ((69, 54), Some 50495001220703120000); ((69, 55), Some 43895901489257815000); ((69, 56), Some 51170800781250000000); ((69, 57), Some 54740802001953130000); ((69, 58), Some 61680401611328130000); ((69, 59), Some 48100799560546880000); ((69, 60), Some 46155200195312505000)];
  [((70, 1), Some 77240802001953130000); ((70, 2), Some 84325701904296880000); ((70, 3), Some 60875897216796880000); ((70, 4), Some 72720697021484370000); ((70, 5), Some 62805603027343750000); ((70, 6), Some 62125000000000010000); ((70, 7), Some 69125097656250010000); ((70, 8), Some 72705798339843760000); ((70, 9), Some 66225701904296880000); ((70, 10), Some 61885101318359370000); ((70, 11), Some 60840502929687500000); ((70, 12), Some 56409997558593750000); ((70, 13), Some 65245300292968760000); ((70, 14), Some 64575799560546880000); ((70, 15), Some 57150097656250010000); ((70, 16), Some 65545898437500000000); ((70, 17), Some 64030401611328130000); ((70, 18), Some 56800000000000000000); ((70, 19), Some 54254998779296880000); ((70, 20), Some 63130200195312500000); ((70, 21), Some 61480902099609380000); ((70, 22), Some 60715802001953130000); ((70, 23), Some 60665698242187500000); ((70, 24), Some 57485101318359380000); ((70, 25), Some 69310400390625010000); ((70, 26), Some 51580297851562510000); ((70, 27), Some 70310400390625010000); ((70, 28), Some 58705401611328120000); ((70, 29), Some 57565899658203120000); ((70, 30), Some 54004998779296880000); ((70, 31), Some 47770199584960940000); ((70, 32), Some 56430798339843750000); ((70, 33), Some 56060400390625010000); ((70, 34), Some 54205603027343750000); ((70, 35), Some 52515301513671870000); ((70, 36), Some 59075500488281250000); ((70, 37), Some 69325000000000000000); ((70, 38), Some 57360601806640620000); ((70, 39), Some 51320300292968750000); ((70, 40), Some 54025201416015630000); ((70, 41), Some 62415899658203130000); ((70, 42), Some 56545300292968750000); ((70, 43), Some 55275598144531260000); ((70, 44), Some 52165002441406250000); ((70, 45), Some 48215100097656250000); ((70, 46), Some 52380102539062500000); ((70, 47), Some 44760598754882814000); ((70, 48), Some 54210302734375000000); ((70, 49), Some 61520001220703130000); ((70, 50), Some 57060699462890620000); ((70, 51), Some 60205499267578130000); ((70, 52), Some 49475201416015630000); ((70, 53), Some 57860498046875010000); ((70, 54), Some 55065698242187500000); ((70, 55), Some 53175500488281250000); ((70, 56), Some 57825402832031250000); ((70, 57), Some 59845300292968750000); ((70, 58), Some 63690698242187500000); ((70, 59), Some 49230899047851560000); ((70, 60), Some 57130200195312510000)];
  [((71, 1), Some 44670800781250003000); ((71, 2), Some 56350201416015630000); ((71, 3), Some 74990899658203130000); ((71, 4), Some 55775598144531250000); ((71, 5), Some 59040698242187500000); ((71, 6), Some 57760400390625010000); ((71, 7), Some 68730499267578130000); ((71, 8), Some 71305297851562510000); ((71, 9), Some 56410302734375000000); ((71, 10), Some 59850000000000010000); ((71, 11), Some 68195800781250010000); ((71, 12), Some 43670498657226564000); ((71, 13), Some 58815698242187510000); ((71, 14), Some 51284997558593750000); ((71, 15), Some 57730499267578130000); ((71, 16), Some 60165502929687500000); ((71, 17), Some 51395599365234380000); ((71, 18), Some 58570300292968750000); ((71, 19), Some 48770001220703130000); ((71, 20), Some 63070800781250000000); ((71, 21), Some 54460601806640630000); ((71, 22), Some 50575399780273440000); ((71, 23), Some 48470498657226570000); ((71, 24), Some 61640600585937510000); ((71, 25), Some 48040499877929690000); ((71, 26), Some 47825201416015630000); ((71, 27), Some 59470397949218760000); ((71, 28), Some 49040100097656250000); ((71, 29), Some 43240798950195316000); ((71, 30), Some 52605603027343760000); ((71, 31), Some 55465197753906250000); ((71, 32), Some 62130401611328130000); ((71, 33), Some 64240301513671880000); ((71, 34), Some 50405700683593750000); ((71, 35), Some 56375000000000000000); ((71, 36), Some 46825399780273440000); ((71, 37), Some 60040698242187510000); ((71, 38), Some 50705700683593750000); ((71, 40), Some 56875897216796870000); ((71, 41), Some 47555899047851564000); ((71, 42), Some 60050299072265630000); ((71, 43), Some 53304998779296880000); ((71, 44), Some 55930902099609380000); ((71, 45), Some 59700000000000010000); ((71, 46), Some 59470397949218760000); ((71, 47), Some 50355200195312510000); ((71, 48), Some 44770401000976566000); ((71, 49), Some 57735198974609380000); ((71, 50), Some 43739999389648440000); ((71, 51), Some 48964999389648440000); ((71, 52), Some 52100598144531250000); ((71, 53), Some 56405902099609380000); ((71, 54), Some 50214999389648440000); ((71, 55), Some 48690899658203120000); ((71, 56), Some 47720599365234380000); ((71, 57), Some 39745300292968750000); ((71, 58), Some 54820098876953130000); ((71, 59), Some 64630603027343750000); ((71, 60), Some 53730297851562500000)];
  [((72, 1), Some 60454998779296880000); ((72, 2), Some 64140600585937500000); ((72, 3), Some 47215100097656250000); ((72, 4), Some 62110400390625010000); ((72, 5), Some 70700299072265630000); ((72, 6), Some 77790002441406250000); ((72, 7), Some 71235400390625000000); ((72, 8), Some 63070300292968750000); ((72, 9), Some 66000598144531260000); ((72, 10), Some 63800799560546870000); ((72, 11), Some 55380798339843760000); ((72, 12), Some 69120098876953130000); ((72, 13), Some 64210198974609380000); ((72, 14), Some 64160101318359380000); ((72, 15), Some 59420800781250000000); ((72, 16), Some 65500299072265620000); ((72, 17), Some 54555499267578130000); ((72, 18), Some 60640399169921880000); ((72, 19), Some 65325701904296880000); ((72, 20), Some 57785101318359380000); ((72, 21), Some 60985498046875010000); ((72, 22), Some 65320300292968750000); ((72, 23), Some 63540100097656250000); ((72, 24), Some 63815802001953130000); ((72, 25), Some 62535797119140620000); ((72, 26), Some 48730499267578130000); ((72, 27), Some 57634997558593750000); ((72, 28), Some 71450897216796880000); ((72, 29), Some 38125698852539065000); ((72, 30), Some 66404998779296880000); ((72, 31), Some 55950299072265630000); ((72, 32), Some 56620599365234380000); ((72, 33), Some 53105902099609380000); ((72, 34), Some 41640798950195317000); ((72, 35), Some 52340502929687510000); ((72, 36), Some 42510501098632813000); ((72, 37), Some 39580801391601567000); ((72, 38), Some 54700097656250000000); ((72, 39), Some 51175601196289070000); ((72, 40), Some 55690399169921880000); ((72, 41), Some 41995098876953127000); ((72, 42), Some 52520599365234380000); ((72, 43), Some 57600598144531250000); ((72, 44), Some 43185501098632816000); ((72, 45), Some 61110101318359380000); ((72, 46), Some 57495098876953130000); ((72, 47), Some 65275299072265630000); ((72, 48), Some 57170697021484380000); ((72, 49), Some 63430798339843760000); ((72, 50), Some 59525598144531260000); ((72, 51), Some 58155902099609380000); ((72, 52), Some 53735101318359380000); ((72, 53), Some 48760501098632810000); ((72, 54), Some 44945700073242190000); ((72, 55), Some 59570501708984380000); ((72, 56), Some 65875799560546880000); ((72, 57), Some 42260699462890630000); ((72, 58), Some 45420700073242190000); ((72, 59), Some 54825598144531250000); ((72, 60), Some 61190600585937510000)];
  [((73, 1), Some 68005700683593750000); ((73, 2), Some 67670898437500000000); ((73, 3), Some 77220397949218760000); ((73, 4), Some 77770599365234380000); ((73, 5), Some 62870001220703130000); ((73, 6), Some 63540301513671880000); ((73, 7), Some 57410198974609380000); ((73, 8), Some 48060400390625000000); ((73, 9), Some 58680401611328130000); ((73, 10), Some 62980401611328130000); ((73, 11), Some 56740899658203130000); ((73, 12), Some 66965600585937510000); ((73, 13), Some 75730798339843750000); ((73, 14), Some 63810797119140620000); ((73, 15), Some 63104998779296880000); ((73, 16), Some 47815899658203130000); ((73, 17), Some 60855102539062500000); ((73, 18), Some 50945098876953130000); ((73, 19), Some 53830297851562510000); ((73, 20), Some 65530700683593760000); ((73, 21), Some 65080798339843760000); ((73, 22), Some 63895397949218750000); ((73, 23), Some 61450000000000000000); ((73, 24), Some 64315899658203130000); ((73, 25), Some 59995098876953130000); ((73, 26), Some 71270300292968750000); ((73, 27), Some 47305099487304690000); ((73, 28), Some 57680200195312510000); ((73, 29), Some 62155401611328130000); ((73, 30), Some 51890100097656250000); ((73, 31), Some 50825100708007820000); ((73, 32), Some 55730297851562500000); ((73, 33), Some 47520001220703130000); ((73, 34), Some 49920901489257810000); ((73, 35), Some 52090002441406260000); ((73, 36), Some 53985198974609370000); ((73, 37), Some 48410000610351570000); ((73, 38), Some 45270498657226563000); ((73, 39), Some 63435699462890630000); ((73, 40), Some 39595700073242190000); ((73, 41), Some 51645397949218750000); ((73, 42), Some 55265197753906260000); ((73, 43), Some 57570001220703130000); ((73, 44), Some 58035302734375010000); ((73, 45), Some 61885400390625000000); ((73, 46), Some 59600701904296880000); ((73, 47), Some 51595202636718760000); ((73, 48), Some 57215002441406250000); ((73, 49), Some 52400201416015630000); ((73, 50), Some 50800201416015630000); ((73, 51), Some 50770498657226560000); ((73, 52), Some 40770800781250000000); ((73, 53), Some 41685598754882816000); ((73, 54), Some 58505102539062500000); ((73, 55), Some 60325500488281250000); ((73, 56), Some 54700799560546880000); ((73, 57), Some 53915002441406260000); ((73, 58), Some 48410699462890630000); ((73, 59), Some 53925701904296880000); ((73, 60), Some 50910400390625000000)];
  [((74, 1), Some 68380401611328130000); ((74, 2), Some 67265301513671880000); ((74, 3), Some 64225799560546870000); ((74, 4), Some 70475799560546880000); ((74, 5), Some 56985400390625000000); ((74, 6), Some 51075399780273440000); ((74, 7), Some 61390002441406260000); ((74, 8), Some 54865301513671880000); ((74, 10), Some 65440399169921880000); ((74, 11), Some 56000500488281260000); ((74, 12), Some 50910900878906250000); ((74, 13), Some 49070401000976560000); ((74, 14), Some 63234997558593760000); ((74, 15), Some 51895098876953120000); ((74, 16), Some 47990399169921870000); ((74, 19), Some 60185101318359380000); ((74, 20), Some 61480499267578130000); ((74, 21), Some 57785101318359380000); ((74, 22), Some 49025698852539060000); ((74, 23), Some 58835601806640630000); ((74, 24), Some 59400701904296880000); ((74, 25), Some 52315197753906260000); ((74, 26), Some 44580899047851563000); ((74, 27), Some 56385601806640620000); ((74, 28), Some 55990002441406250000); ((74, 29), Some 49060000610351560000); ((74, 30), Some 59695001220703130000); ((74, 31), Some 43350601196289065000); ((74, 32), Some 41545300292968755000); ((74, 33), Some 50575201416015620000); ((74, 34), Some 60125402832031260000); ((74, 35), Some 47690899658203120000); ((74, 36), Some 45475601196289066000); ((74, 37), Some 59925299072265630000); ((74, 38), Some 54740002441406260000); ((74, 39), Some 60125500488281260000); ((74, 40), Some 49280099487304690000); ((74, 41), Some 65820001220703130000); ((74, 42), Some 49905499267578130000); ((74, 43), Some 60590502929687500000); ((74, 44), Some 52530401611328130000); ((74, 45), Some 52730401611328130000); ((74, 46), Some 59860198974609380000); ((74, 47), Some 53929998779296880000); ((74, 48), Some 44420700073242193000); ((74, 49), Some 56850897216796880000); ((74, 50), Some 53554998779296880000); ((74, 51), Some 51250897216796880000); ((74, 52), Some 59840197753906250000); ((74, 53), Some 51510302734375000000); ((74, 54), Some 40420498657226564000); ((74, 55), Some 54945098876953130000); ((74, 56), Some 42340499877929690000); ((74, 57), Some 63480499267578130000); ((74, 58), Some 58775701904296880000); ((74, 59), Some 56390100097656250000); ((74, 60), Some 49804998779296870000)];
  [((75, 1), Some 53170098876953120000); ((75, 2), Some 58465802001953130000); ((75, 3), Some 62085797119140630000); ((75, 4), Some 66570599365234380000); ((75, 5), Some 69785699462890630000); ((75, 6), Some 55945300292968760000); ((75, 7), Some 57460302734375000000); ((75, 8), Some 67525897216796880000); ((75, 9), Some 43625900268554690000); ((75, 10), Some 58310198974609380000); ((75, 11), Some 67060601806640630000); ((75, 12), Some 59350201416015630000); ((75, 13), Some 61505798339843750000); ((75, 14), Some 57955297851562510000); ((75, 15), Some 51115600585937500000); ((75, 16), Some 52330902099609370000); ((75, 17), Some 68925402832031250000); ((75, 18), Some 56545202636718760000); ((75, 19), Some 64715002441406250000); ((75, 20), Some 60385302734375000000); ((75, 21), Some 50185198974609380000); ((75, 22), Some 52390100097656250000); ((75, 23), Some 57190399169921880000); ((75, 24), Some 62865600585937500000); ((75, 25), Some 62380401611328130000); ((75, 26), Some 52420599365234380000); ((75, 27), Some 71305297851562510000); ((75, 28), Some 55560797119140630000); ((75, 29), Some 51465802001953130000); ((75, 30), Some 54900299072265630000); ((75, 31), Some 59695501708984380000); ((75, 32), Some 61880297851562510000); ((75, 33), Some 64795001220703130000); ((75, 34), Some 51005099487304690000); ((75, 35), Some 55565301513671880000); ((75, 36), Some 54320397949218750000); ((75, 37), Some 59495599365234370000); ((75, 38), Some 64675897216796880000); ((75, 39), Some 58025799560546870000); ((75, 40), Some 43970800781250003000); ((75, 41), Some 44185400390625004000); ((75, 42), Some 52950897216796880000); ((75, 43), Some 63895697021484380000); ((75, 44), Some 58635797119140630000); ((75, 45), Some 54570202636718760000); ((75, 46), Some 56265600585937510000); ((75, 47), Some 59960699462890630000); ((75, 48), Some 61620001220703130000); ((75, 49), Some 48620401000976570000); ((75, 50), Some 51200897216796880000); ((75, 51), Some 58990502929687510000); ((75, 52), Some 51680297851562500000); ((75, 53), Some 48515499877929690000); ((75, 54), Some 52955798339843750000); ((75, 55), Some 48610598754882810000); ((75, 56), Some 38305801391601566000); ((75, 57), Some 50995901489257820000); ((75, 58), Some 47845901489257820000); ((75, 59), Some 50205398559570310000); ((75, 60), Some 53805401611328130000)];
  [((76, 1), Some 66655700683593760000); ((76, 2), Some 65410101318359370000); ((76, 3), Some 64845098876953130000); ((76, 4), Some 65330200195312500000); ((76, 5), Some 60310498046875000000); ((76, 6), Some 64915399169921870000); ((76, 7), Some 50395300292968750000); ((76, 8), Some 53615399169921880000); ((76, 9), Some 61085198974609380000); ((76, 10), Some 57840698242187500000); ((76, 11), Some 61040399169921880000); ((76, 12), Some 59710601806640630000); ((76, 13), Some 65690698242187510000); ((76, 14), Some 63590100097656250000); ((76, 15), Some 58705200195312500000); ((76, 16), Some 59065600585937500000); ((76, 17), Some 63785797119140630000); ((76, 18), Some 50339999389648440000); ((76, 19), Some 56700201416015630000); ((76, 20), Some 54505700683593750000); ((76, 21), Some 48545300292968750000); ((76, 22), Some 50875399780273440000); ((76, 23), Some 57810198974609380000); ((76, 24), Some 55565399169921880000); ((76, 25), Some 55045001220703130000); ((76, 26), Some 61480297851562510000); ((76, 27), Some 52930499267578130000); ((76, 28), Some 57025701904296880000); ((76, 29), Some 56920300292968760000); ((76, 30), Some 62729998779296880000); ((76, 31), Some 51680499267578130000); ((76, 32), Some 53625299072265630000); ((76, 33), Some 50195901489257810000); ((76, 34), Some 51990502929687500000); ((76, 35), Some 49750201416015620000); ((76, 36), Some 49475900268554690000); ((76, 37), Some 53780499267578130000); ((76, 38), Some 54010900878906250000); ((76, 39), Some 54495098876953130000); ((76, 40), Some 56684997558593750000); ((76, 41), Some 46835000610351564000); ((76, 42), Some 49615600585937500000); ((76, 43), Some 52230798339843750000); ((76, 44), Some 60505499267578120000); ((76, 45), Some 61320898437500000000); ((76, 46), Some 53925701904296880000); ((76, 47), Some 55355603027343750000); ((76, 48), Some 48080099487304690000); ((76, 49), Some 56705798339843750000); ((76, 50), Some 58580102539062500000); ((76, 51), Some 57540197753906260000); ((76, 52), Some 56125097656250000000); ((76, 53), Some 52445800781250000000); ((76, 54), Some 53125701904296880000); ((76, 55), Some 51990698242187500000); ((76, 56), Some 52610198974609380000); ((76, 57), Some 46620700073242190000); ((76, 58), Some 58730798339843750000); ((76, 59), Some 53560601806640620000); ((76, 60), Some 42010000610351566000)];
  [((77, 1), Some 74895300292968750000); ((77, 2), Some 63350701904296880000); ((77, 3), Some 64375701904296870000); ((77, 4), Some 62820300292968750000); ((77, 5), Some 54815399169921880000); ((77, 6), Some 70115399169921880000); ((77, 7), Some 62520300292968750000); ((77, 8), Some 56660699462890630000); ((77, 9), Some 53920098876953130000); ((77, 10), Some 57975000000000000000); ((77, 11), Some 63645800781250000000); ((77, 12), Some 62230200195312500000); ((77, 13), Some 59745501708984380000); ((77, 14), Some 61520800781250000000); ((77, 15), Some 54780798339843750000); ((77, 16), Some 67475598144531250000); ((77, 17), Some 59465399169921880000); ((77, 18), Some 54430297851562510000); ((77, 19), Some 62860400390625000000); ((77, 20), Some 68160302734375000000); ((77, 21), Some 49750100708007810000); ((77, 22), Some 54395599365234380000); ((77, 23), Some 70985198974609380000); ((77, 24), Some 58410900878906260000); ((77, 25), Some 61815399169921870000); ((77, 26), Some 62025500488281250000); ((77, 27), Some 62500097656250010000); ((77, 28), Some 55340802001953130000); ((77, 29), Some 56460498046875010000); ((77, 30), Some 46300299072265627000); ((77, 31), Some 55829998779296880000); ((77, 32), Some 55855902099609370000); ((77, 33), Some 57015301513671880000); ((77, 34), Some 61580603027343750000); ((77, 35), Some 58940197753906260000); ((77, 36), Some 59520001220703120000); ((77, 37), Some 57905603027343750000); ((77, 38), Some 46560101318359376000); ((77, 39), Some 57625799560546880000); ((77, 40), Some 53804998779296880000); ((77, 41), Some 52330297851562500000); ((77, 42), Some 57170098876953130000); ((77, 43), Some 58465002441406250000); ((77, 44), Some 59440002441406260000); ((77, 45), Some 67385601806640630000); ((77, 46), Some 53180798339843750000); ((77, 47), Some 47650201416015626000); ((77, 48), Some 48685800170898440000); ((77, 49), Some 58220599365234370000); ((77, 50), Some 50325100708007810000); ((77, 51), Some 56185601806640630000); ((77, 52), Some 60385699462890630000); ((77, 53), Some 51284997558593750000); ((77, 54), Some 56185699462890630000); ((77, 55), Some 67295898437500000000); ((77, 56), Some 61560699462890630000); ((77, 57), Some 36695401000976563000); ((77, 58), Some 59785601806640630000); ((77, 59), Some 50765600585937510000); ((77, 60), Some 45900900268554690000)];
  [((78, 1), Some 71879998779296880000); ((78, 2), Some 72580798339843760000); ((78, 3), Some 69560302734375000000); ((78, 4), Some 66480102539062500000); ((78, 5), Some 60375402832031250000); ((78, 6), Some 73895697021484380000); ((78, 7), Some 46020498657226566000); ((78, 8), Some 58105902099609370000); ((78, 9), Some 41805099487304690000); ((78, 10), Some 61470397949218750000); ((78, 11), Some 64875402832031250000); ((78, 12), Some 45035699462890626000); ((78, 13), Some 52180499267578120000); ((78, 14), Some 61565899658203130000); ((78, 15), Some 50025900268554690000); ((78, 16), Some 49679998779296870000); ((78, 17), Some 60280700683593750000); ((78, 18), Some 47335900878906254000); ((78, 19), Some 62715698242187500000); ((78, 20), Some 39960400390625005000); ((78, 21), Some 44085000610351563000); ((78, 22), Some 44945498657226565000); ((78, 23), Some 61665502929687510000); ((78, 24), Some 66540600585937500000); ((78, 25), Some 59929998779296880000); ((78, 26), Some 64070001220703130000); ((78, 27), Some 58360302734375000000); ((78, 28), Some 51840301513671880000); ((78, 29), Some 56995800781250000000); ((78, 30), Some 40545001220703130000); ((78, 31), Some 62390600585937500000); ((78, 32), Some 61085797119140630000); ((78, 33), Some 51120599365234380000); ((78, 34), Some 35835900878906253000); ((78, 35), Some 55995501708984370000); ((78, 36), Some 68660900878906250000); ((78, 37), Some 56660498046875000000); ((78, 38), Some 55315502929687510000); ((78, 39), Some 59950299072265630000); ((78, 40), Some 48145001220703130000); ((78, 41), Some 41595001220703127000); ((78, 42), Some 42445498657226570000); ((78, 43), Some 63229998779296880000); ((78, 44), Some 50895300292968750000); ((78, 45), Some 59660302734375000000); ((78, 46), Some 55755401611328130000); ((78, 47), Some 43855899047851567000); ((78, 48), Some 46480899047851570000); ((78, 49), Some 47895700073242190000); ((78, 50), Some 56605700683593750000); ((78, 51), Some 42365100097656254000); ((78, 52), Some 61895300292968760000); ((78, 53), Some 57225000000000000000); ((78, 54), Some 53420202636718760000); ((78, 55), Some 47740399169921880000); ((78, 56), Some 47330200195312503000); ((78, 57), Some 43095300292968755000); ((78, 58), Some 48030398559570320000); ((78, 59), Some 52155102539062500000); ((78, 60), Some 49710198974609380000)];
  [((79, 1), Some 66465301513671880000); ((79, 2), Some 64900299072265630000); ((79, 3), Some 71165600585937500000); ((79, 4), Some 69335900878906250000); ((79, 5), Some 71385400390625000000); ((79, 6), Some 62535198974609380000); ((79, 7), Some 68085900878906250000); ((79, 8), Some 63040399169921880000); ((79, 9), Some 69920397949218750000); ((79, 10), Some 50575698852539060000); ((79, 11), Some 63405297851562500000); ((79, 12), Some 63715600585937500000); ((79, 13), Some 64120501708984380000); ((79, 14), Some 62665899658203130000); ((79, 15), Some 66709997558593750000); ((79, 16), Some 52865301513671880000); ((79, 17), Some 48505700683593760000); ((79, 18), Some 59640698242187510000); ((79, 19), Some 43870401000976567000); ((79, 20), Some 53425097656250000000); ((79, 21), Some 63090399169921880000); ((79, 22), Some 67295697021484380000); ((79, 23), Some 65790802001953130000); ((79, 24), Some 62285797119140630000); ((79, 25), Some 63705200195312500000); ((79, 26), Some 60215100097656260000); ((79, 27), Some 73579998779296880000); ((79, 28), Some 62845898437500010000); ((79, 29), Some 74920697021484380000); ((79, 30), Some 86780401611328130000); ((79, 31), Some 68235302734375000000); ((79, 32), Some 71255401611328130000); ((79, 33), Some 73015399169921880000); ((79, 34), Some 92490802001953130000); ((79, 35), Some 86735302734375000000); ((79, 36), Some 82570697021484380000); ((79, 37), Some 88135198974609380000); ((79, 38), Some 97445001220703120000); ((79, 39), Some 88585198974609380000); ((79, 40), Some 72015399169921880000); ((79, 41), Some 71205499267578130000); ((79, 42), Some 87780700683593750000); ((79, 43), Some 48880200195312500000); ((79, 44), Some 89865301513671880000); ((79, 45), Some 74284997558593750000); ((79, 46), Some 55875598144531260000); ((79, 47), Some 65995001220703130000); ((79, 48), Some 64805297851562500000); ((79, 49), Some 59595001220703130000); ((79, 50), Some 60890899658203130000); ((79, 51), Some 59920800781250000000); ((79, 52), Some 66735101318359380000); ((79, 53), Some 82020098876953130000); ((79, 54), Some 75905200195312500000); ((79, 57), Some 68990002441406260000); ((79, 58), Some 71515197753906260000); ((79, 59), Some 56135400390625000000); ((79, 60), Some 70955297851562500000)];
  [((80, 1), Some 62305297851562510000); ((80, 2), Some 62010797119140630000); ((80, 3), Some 54655401611328130000); ((80, 4), Some 71105798339843750000); ((80, 5), Some 63290399169921880000); ((80, 6), Some 65634997558593760000); ((80, 7), Some 65680297851562510000); ((80, 8), Some 56465899658203130000); ((80, 9), Some 58770202636718760000); ((80, 10), Some 52480798339843750000); ((80, 11), Some 53660498046875010000); ((80, 12), Some 66675402832031250000); ((80, 13), Some 70015301513671880000); ((80, 14), Some 52720098876953130000); ((80, 15), Some 44665200805664064000); ((80, 16), Some 57530798339843750000); ((80, 17), Some 64680200195312500000); ((80, 18), Some 50900100708007810000); ((80, 19), Some 55440600585937510000); ((80, 20), Some 53830401611328130000); ((80, 21), Some 54830798339843760000); ((80, 22), Some 49190701293945320000); ((80, 23), Some 46370700073242190000); ((80, 24), Some 54590100097656260000); ((80, 25), Some 58025799560546870000); ((80, 26), Some 60935699462890630000); ((80, 27), Some 50400201416015630000); ((80, 28), Some 60725402832031250000); ((80, 29), Some 47390600585937500000); ((80, 30), Some 89920697021484390000); ((80, 31), Some 88030902099609380000); ((80, 32), Some 79065002441406250000); ((80, 33), Some 80495001220703130000); ((80, 34), Some 76455297851562500000); ((80, 35), Some 90370397949218750000); ((80, 36), Some 78565600585937510000); ((80, 37), Some 76130297851562510000); ((80, 38), Some 80455401611328130000); ((80, 39), Some 78140802001953130000); ((80, 40), Some 79450500488281260000); ((80, 41), Some 80670001220703140000); ((80, 42), Some 85580798339843760000); ((80, 43), Some 76455200195312500000); ((80, 44), Some 55010699462890630000); ((80, 45), Some 43180099487304690000); ((80, 46), Some 48890301513671880000); ((80, 47), Some 58325701904296870000); ((80, 48), Some 63755603027343760000); ((80, 49), Some 57705603027343750000); ((80, 50), Some 49035198974609370000); ((80, 51), Some 60410601806640630000); ((80, 52), Some 77840899658203130000); ((80, 53), Some 57185302734375010000); ((80, 54), Some 47470901489257814000); ((80, 55), Some 47285598754882813000); ((80, 56), Some 54035198974609380000); ((80, 57), Some 60470599365234370000); ((80, 58), Some 65605102539062510000); ((80, 59), Some 82415802001953130000); ((80, 60), Some 72235498046875010000)];
  [((81, 1), Some 76085400390625010000); ((81, 2), Some 82185601806640630000); ((81, 3), Some 86475097656250010000); ((81, 4), Some 92240100097656260000); ((81, 5), Some 80735198974609380000); ((81, 6), Some 83479998779296880000); ((81, 7), Some 86325201416015630000); ((81, 8), Some 77890197753906250000); ((81, 9), Some 73245098876953130000); ((81, 10), Some 84060198974609380000); ((81, 11), Some 79454998779296880000); ((81, 12), Some 77305603027343750000); ((81, 13), Some 73290600585937500000); ((81, 14), Some 81140399169921880000); ((81, 15), Some 64030700683593750000); ((81, 16), Some 81760699462890630000); ((81, 17), Some 53580603027343760000); ((81, 18), Some 67600897216796880000); ((81, 19), Some 77085400390625010000); ((81, 20), Some 77820599365234370000); ((81, 21), Some 84725598144531250000); ((81, 22), Some 64175500488281260000); ((81, 23), Some 84470697021484380000); ((81, 24), Some 75350299072265630000); ((81, 25), Some 70355200195312510000); ((81, 26), Some 83979998779296880000); ((81, 27), Some 76970501708984380000); ((81, 28), Some 84245202636718750000); ((81, 29), Some 85225701904296880000); ((81, 30), Some 67930401611328130000); ((81, 31), Some 82495397949218750000); ((81, 32), Some 87450500488281260000); ((81, 33), Some 64910198974609380000); ((81, 34), Some 74590100097656260000); ((81, 35), Some 77815301513671880000); ((81, 36), Some 66425500488281250000); ((81, 37), Some 64540301513671880000); ((81, 38), Some 64215698242187500000); ((81, 39), Some 62065399169921880000); ((81, 40), Some 83215899658203140000); ((81, 41), Some 75995501708984380000); ((81, 42), Some 84955499267578130000); ((81, 43), Some 84915802001953130000); ((81, 44), Some 87825097656250000000); ((81, 45), Some 82340600585937510000); ((81, 46), Some 67510699462890630000); ((81, 47), Some 78600897216796880000); ((81, 48), Some 70325598144531250000); ((81, 49), Some 68950201416015630000); ((81, 50), Some 70400000000000010000); ((81, 51), Some 83400500488281260000); ((81, 52), Some 74450598144531260000); ((81, 53), Some 84210400390625000000); ((81, 54), Some 67190698242187500000); ((81, 55), Some 72155700683593760000); ((81, 56), Some 77075201416015630000); ((81, 57), Some 84265301513671880000); ((81, 58), Some 79715197753906250000); ((81, 59), Some 91185400390625010000); ((81, 60), Some 77620800781250010000)];
  [((82, 1), Some 95320098876953140000); ((82, 2), Some 77355700683593750000); ((82, 3), Some 85645501708984380000); ((82, 4), Some 76590301513671880000); ((82, 5), Some 83425500488281250000); ((82, 6), Some 80970098876953130000); ((82, 7), Some 83975598144531250000); ((82, 8), Some 85570599365234390000); ((82, 9), Some 84080200195312500000); ((82, 10), Some 72320300292968760000); ((82, 11), Some 82255798339843750000); ((82, 12), Some 87520501708984380000); ((82, 13), Some 76790197753906250000); ((82, 14), Some 86530102539062500000); ((82, 15), Some 94420697021484380000); ((82, 16), Some 82430798339843760000); ((82, 17), Some 79395098876953130000); ((82, 18), Some 76155499267578120000); ((82, 19), Some 82665502929687510000); ((82, 20), Some 83785400390625000000); ((82, 21), Some 74795599365234380000); ((82, 22), Some 102718005371093750000); ((82, 23), Some 81640802001953130000); ((82, 24), Some 71735198974609380000); ((82, 25), Some 78384997558593750000); ((82, 26), Some 78350097656250000000); ((82, 27), Some 68520898437500000000); ((82, 28), Some 86180499267578130000); ((82, 29), Some 76135302734375000000); ((82, 30), Some 88685198974609380000); ((82, 31), Some 69305401611328130000); ((82, 32), Some 81180102539062500000); ((82, 33), Some 93405102539062500000); ((82, 34), Some 74075097656250010000); ((82, 35), Some 86145800781250000000); ((82, 36), Some 67470300292968750000); ((82, 37), Some 84105603027343750000); ((82, 38), Some 74705200195312510000); ((82, 39), Some 74785601806640630000); ((82, 40), Some 55040399169921870000); ((82, 41), Some 76095202636718760000); ((82, 42), Some 70155603027343750000); ((82, 43), Some 78445599365234380000); ((82, 44), Some 101303997802734380000); ((82, 45), Some 88640399169921880000); ((82, 46), Some 82765301513671880000); ((82, 47), Some 77009997558593750000); ((82, 48), Some 80515399169921880000); ((82, 49), Some 94595697021484380000); ((82, 50), Some 70145697021484380000); ((82, 51), Some 72745300292968760000); ((82, 52), Some 90610699462890640000); ((82, 53), Some 74140100097656250000); ((82, 54), Some 99620697021484370000); ((82, 55), Some 85585900878906250000); ((82, 56), Some 77450799560546880000); ((82, 57), Some 79820098876953130000); ((82, 58), Some 71995898437500010000); ((82, 59), Some 72050799560546880000); ((82, 60), Some 73335797119140630000)];
  [((83, 1), Some 68185797119140620000); ((83, 2), Some 64760601806640630000); ((83, 3), Some 64960101318359380000); ((83, 4), Some 67630700683593750000); ((83, 5), Some 65130700683593760000); ((83, 6), Some 72584997558593750000); ((83, 7), Some 79905902099609380000); ((83, 8), Some 79960797119140630000); ((83, 9), Some 72495202636718750000); ((83, 10), Some 71925402832031250000); ((83, 11), Some 79365698242187510000); ((83, 12), Some 70315399169921880000); ((83, 13), Some 59160797119140620000); ((83, 14), Some 64450897216796880000); ((83, 15), Some 70390802001953130000); ((83, 16), Some 67200701904296870000); ((83, 17), Some 63760101318359380000); ((83, 18), Some 73270599365234380000); ((83, 19), Some 75254998779296880000); ((83, 20), Some 56460198974609380000); ((83, 21), Some 65380102539062500000); ((83, 22), Some 71255200195312500000); ((83, 23), Some 66990698242187510000); ((83, 24), Some 74755102539062510000); ((83, 25), Some 61320599365234370000); ((83, 26), Some 70425897216796880000); ((83, 27), Some 65885400390625000000); ((83, 28), Some 74320300292968750000); ((83, 29), Some 73740002441406250000); ((83, 30), Some 55340197753906250000); ((83, 31), Some 69530102539062510000); ((83, 32), Some 72970001220703130000); ((83, 33), Some 53160302734375000000); ((83, 34), Some 69535900878906250000); ((83, 35), Some 49300201416015620000); ((83, 36), Some 55330102539062500000); ((83, 37), Some 60670501708984380000); ((83, 38), Some 58445599365234380000); ((83, 39), Some 71345599365234380000); ((83, 40), Some 56880200195312500000); ((83, 41), Some 66070599365234380000); ((83, 42), Some 54970300292968760000); ((83, 43), Some 56760601806640630000); ((83, 44), Some 67710498046875000000); ((83, 45), Some 59655102539062510000); ((83, 46), Some 73795300292968750000); ((83, 47), Some 54755200195312500000); ((83, 48), Some 54790802001953130000); ((83, 49), Some 67615802001953130000); ((83, 50), Some 55205700683593750000); ((83, 51), Some 67745397949218760000); ((83, 52), Some 66029998779296870000); ((83, 53), Some 60140399169921880000); ((83, 54), Some 56430902099609370000); ((83, 55), Some 52665600585937500000); ((83, 56), Some 58875097656250000000); ((83, 57), Some 61445599365234380000); ((83, 58), Some 67140600585937510000); ((83, 59), Some 55430499267578120000); ((83, 60), Some 49855899047851570000)];
  [((84, 1), Some 78579998779296880000); ((84, 2), Some 88015399169921880000); ((84, 3), Some 92500299072265630000); ((84, 4), Some 81095202636718760000); ((84, 5), Some 81685498046875010000); ((84, 6), Some 82825097656250010000); ((84, 7), Some 83435400390625010000); ((84, 8), Some 72050000000000000000); ((84, 9), Some 79304998779296880000); ((84, 10), Some 91745800781250010000); ((84, 11), Some 75005700683593760000); ((84, 12), Some 76330102539062510000); ((84, 13), Some 77095599365234380000); ((84, 14), Some 85680902099609380000); ((84, 15), Some 83610400390625000000); ((84, 16), Some 96705200195312500000); ((84, 17), Some 66295300292968750000); ((84, 18), Some 86240002441406250000); ((84, 19), Some 92765600585937510000); ((84, 20), Some 86200500488281260000); ((84, 21), Some 85485900878906260000); ((84, 22), Some 77965301513671880000); ((84, 23), Some 80695898437500010000); ((84, 24), Some 76560797119140630000); ((84, 25), Some 76795300292968760000); ((84, 26), Some 108250000000000000000); ((84, 27), Some 74315502929687510000); ((84, 28), Some 84845001220703130000); ((84, 29), Some 81070397949218750000); ((84, 30), Some 78880401611328130000); ((84, 31), Some 86420397949218750000); ((84, 32), Some 79340197753906250000); ((84, 33), Some 80720898437500010000); ((84, 34), Some 91000201416015630000); ((84, 35), Some 86085797119140630000); ((84, 36), Some 79915301513671880000); ((84, 37), Some 78205603027343750000); ((84, 38), Some 78870599365234380000); ((84, 39), Some 71755603027343760000); ((84, 40), Some 97195599365234380000); ((84, 41), Some 63055102539062510000); ((84, 42), Some 80815197753906260000); ((84, 43), Some 75145800781250000000); ((84, 44), Some 79495697021484380000); ((84, 45), Some 95265399169921880000); ((84, 46), Some 81045697021484380000); ((84, 47), Some 74485699462890630000); ((84, 48), Some 76950000000000000000); ((84, 49), Some 71135900878906260000); ((84, 50), Some 85845098876953130000); ((84, 51), Some 89684997558593750000); ((84, 52), Some 88315698242187500000); ((84, 53), Some 71430499267578130000); ((84, 54), Some 98345599365234380000); ((84, 55), Some 82645800781250000000); ((84, 56), Some 90220800781250010000); ((84, 57), Some 67560900878906250000); ((84, 58), Some 73080700683593750000); ((84, 59), Some 74965100097656250000); ((84, 60), Some 76125097656250000000)];
  [((85, 1), Some 72690899658203130000); ((85, 2), Some 77035302734375000000); ((85, 3), Some 88070300292968760000); ((85, 4), Some 78725598144531260000); ((85, 5), Some 78910601806640630000); ((85, 6), Some 102502001953125000000); ((85, 7), Some 77345098876953130000); ((85, 8), Some 103126000976562500000); ((85, 9), Some 87140600585937510000); ((85, 10), Some 83175500488281250000); ((85, 11), Some 92090600585937510000); ((85, 12), Some 77470501708984380000); ((85, 13), Some 82590301513671880000); ((85, 14), Some 84615002441406260000); ((85, 15), Some 74860900878906250000); ((85, 16), Some 91385900878906250000); ((85, 17), Some 83455499267578130000); ((85, 18), Some 106731994628906260000); ((85, 19), Some 85855902099609380000); ((85, 20), Some 93685198974609380000); ((85, 21), Some 84330902099609380000); ((85, 22), Some 95800799560546880000); ((85, 23), Some 78060797119140630000); ((85, 24), Some 85590899658203130000); ((85, 25), Some 82405297851562500000); ((85, 26), Some 79080902099609380000); ((85, 27), Some 92545599365234380000); ((85, 28), Some 88040301513671880000); ((85, 29), Some 74680603027343750000); ((85, 30), Some 90060601806640630000); ((85, 31), Some 72330200195312510000); ((85, 32), Some 100389001464843760000); ((85, 33), Some 86225000000000010000); ((85, 34), Some 91240802001953130000); ((85, 35), Some 89510900878906250000); ((85, 36), Some 72330700683593760000); ((85, 37), Some 84480798339843750000); ((85, 38), Some 93370898437500000000); ((85, 39), Some 100125000000000020000); ((85, 40), Some 79030401611328130000); ((85, 41), Some 86840301513671880000); ((85, 42), Some 95530700683593770000); ((85, 43), Some 87960198974609380000); ((85, 44), Some 67875897216796880000); ((85, 45), Some 95445697021484390000); ((85, 46), Some 85465301513671880000); ((85, 47), Some 82450299072265630000); ((85, 48), Some 74645098876953130000); ((85, 49), Some 87555499267578130000); ((85, 50), Some 100390997314453120000); ((85, 51), Some 92035900878906250000); ((85, 52), Some 75700701904296880000); ((85, 53), Some 83404998779296880000); ((85, 54), Some 74190802001953130000); ((85, 55), Some 100926000976562510000); ((85, 56), Some 88095397949218760000); ((85, 57), Some 84260198974609380000); ((85, 58), Some 93290197753906250000); ((85, 59), Some 83875598144531250000); ((85, 60), Some 79240600585937510000)];
  [((86, 1), Some 105701000976562500000); ((86, 2), Some 77665502929687500000); ((86, 3), Some 83385601806640630000); ((86, 4), Some 84615197753906260000); ((86, 5), Some 89110302734375000000); ((86, 6), Some 89805700683593760000); ((86, 7), Some 97260601806640640000); ((86, 8), Some 86535498046875000000); ((86, 9), Some 81555700683593750000); ((86, 10), Some 76530401611328130000); ((86, 11), Some 90375299072265630000); ((86, 12), Some 81840197753906250000); ((86, 13), Some 71845202636718750000); ((86, 14), Some 68070397949218760000); ((86, 15), Some 78220501708984380000); ((86, 16), Some 83290502929687500000); ((86, 17), Some 77095300292968760000); ((86, 18), Some 70635198974609380000); ((86, 19), Some 76065899658203130000); ((86, 20), Some 89515399169921880000); ((86, 21), Some 86045300292968750000); ((86, 22), Some 71550201416015630000); ((86, 23), Some 81875201416015640000); ((86, 24), Some 82090301513671880000); ((86, 25), Some 82730102539062500000); ((86, 26), Some 75980401611328130000); ((86, 29), Some 84270001220703130000); ((86, 30), Some 70770397949218750000); ((86, 31), Some 74730200195312510000); ((86, 32), Some 89080200195312510000); ((86, 33), Some 85730603027343760000); ((86, 34), Some 76365899658203130000); ((86, 35), Some 75900799560546880000); ((86, 36), Some 68935797119140630000); ((86, 37), Some 74040698242187510000); ((86, 38), Some 69715502929687510000); ((86, 39), Some 79225000000000000000); ((86, 40), Some 72240600585937500000); ((86, 41), Some 71405102539062500000); ((86, 42), Some 87275598144531260000); ((86, 43), Some 81709997558593760000); ((86, 44), Some 71390002441406260000); ((86, 45), Some 82585400390625010000); ((86, 46), Some 80020397949218760000); ((86, 47), Some 89895397949218760000); ((86, 48), Some 76125000000000000000); ((86, 49), Some 80555200195312500000); ((86, 50), Some 66950201416015630000); ((86, 51), Some 88145697021484380000); ((86, 52), Some 75065399169921870000); ((86, 53), Some 80559997558593760000); ((86, 54), Some 73150500488281250000); ((86, 55), Some 73325299072265630000); ((86, 56), Some 86880200195312510000); ((86, 57), Some 78065600585937500000); ((86, 58), Some 74415197753906250000); ((86, 59), Some 74425402832031250000); ((86, 60), Some 74910101318359380000)]].
