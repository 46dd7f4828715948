(** * The IES TM-30-15 sample reflectances (hpp:2122-6192).

    Generated from the text of include/colorsystem.hpp: the literals of each
    table, each written as the integer [m] with the table's common power of ten. *)
From Coq Require Import ZArith List.
From Verif Require Import Num Tables.
Import ListNotations.
Local Open Scope Z_scope.

(** hpp:2124-2164 *)
Definition T_CES01 : list dec := table (-6) [
  619470; 620290; 621110; 621930; 622750; 623570; 624390; 625210; 626020; 626840; 627660; 628470;
  629280; 630100; 630910; 631720; 632530; 633340; 634150; 634960; 635900; 636500; 637260; 638140;
  639110; 640150; 641230; 642330; 643400; 644440; 645400; 646270; 647040; 647730; 648340; 648880;
  649350; 649760; 650110; 650430; 650700; 650940; 651140; 651300; 651410; 651470; 651470; 651410;
  651280; 651080; 650800; 650440; 650000; 649480; 648890; 648230; 647510; 646720; 645870; 644960;
  644000; 642990; 641910; 640770; 639550; 638250; 636850; 635340; 633720; 631980; 630100; 628090;
  625950; 623710; 621370; 618950; 616480; 613960; 611410; 608850; 606300; 603760; 601230; 598710;
  596170; 593610; 591030; 588410; 585730; 583000; 580200; 577330; 574390; 571430; 568450; 565480;
  562530; 559640; 556830; 554100; 551500; 549030; 546670; 544420; 542260; 540160; 538100; 536080;
  534070; 532050; 530000; 527920; 525800; 523670; 521540; 519420; 517330; 515280; 513280; 511350;
  509500; 507750; 506090; 504510; 503030; 501630; 500320; 499080; 497910; 496820; 495800; 494850;
  493960; 493140; 492390; 491710; 491100; 490570; 490100; 489710; 489400; 489160; 488990; 488890;
  488840; 488840; 488890; 488970; 489090; 489240; 489400; 489580; 489790; 490030; 490320; 490680;
  491110; 491620; 492230; 492960; 493800; 494780; 495890; 497150; 498550; 500110; 501820; 503690;
  505720; 507920; 510300; 512850; 515580; 518500; 521600; 524880; 528360; 532020; 535880; 539940;
  544200; 548660; 553310; 558140; 563150; 568320; 573640; 579110; 584720; 590450; 596300; 602250;
  608300; 614410; 620580; 626790; 633020; 639260; 645470; 651660; 657800; 663880; 669880; 675810;
  681660; 687430; 693120; 698710; 704210; 709600; 714900; 720090; 725170; 730140; 734990; 739740;
  744360; 748880; 753270; 757550; 761700; 765730; 769650; 773450; 777140; 780720; 784210; 787590;
  790880; 794080; 797200; 800230; 803190; 806060; 808850; 811560; 814190; 816730; 819200; 821590;
  823900; 826130; 828280; 830350; 832350; 834270; 836120; 837900; 839600; 841240; 842800; 844300;
  845730; 847110; 848430; 849710; 850950; 852150; 853320; 854470; 855600; 856710; 857810; 858890;
  859950; 860980; 861990; 862970; 863910; 864830; 865700; 866540; 867340; 868100; 868840; 869550;
  870230; 870900; 871540; 872180; 872800; 873410; 874020; 874620; 875200; 875780; 876350; 876910;
  877450; 877980; 878500; 879010; 879500; 879990; 880460; 880940; 881410; 881880; 882350; 882820;
  883300; 883790; 884280; 884780; 885280; 885790; 886310; 886830; 887350; 887870; 888400; 888930;
  889450; 889960; 890450; 890910; 891350; 891740; 892080; 892370; 892600; 892960; 893270; 893580;
  893890; 894200; 894510; 894810; 895120; 895420; 895730; 896030; 896330; 896630; 896930; 897230;
  897530; 897830; 898130; 898430; 898720; 899020; 899310; 899610; 899900; 900190; 900480; 900770;
  901060; 901350; 901640; 901930; 902220; 902500; 902790; 903070; 903360; 903640; 903920; 904200;
  904490; 904770; 905050; 905320; 905600; 905880; 906160; 906430; 906710; 906980; 907260; 907530;
  907800; 908070; 908340; 908610; 908880; 909150; 909420; 909690; 909950; 910220; 910480; 910750;
  911010; 911280; 911540; 911800; 912060; 912320; 912580; 912840; 913100; 913350; 913610; 913870;
  914120; 914380; 914630; 914880].

(** hpp:2165-2205 *)
Definition T_CES02 : list dec := table (-6) [
  251730; 252210; 252690; 253170; 253650; 254130; 254610; 255100; 255580; 256060; 256550; 257030;
  257520; 258000; 258490; 258980; 259470; 259960; 260440; 260930; 261500; 261870; 262340; 262870;
  263460; 264090; 264720; 265350; 265950; 266510; 267000; 267410; 267740; 268010; 268200; 268340;
  268430; 268470; 268480; 268450; 268400; 268330; 268240; 268120; 267970; 267790; 267580; 267330;
  267030; 266690; 266300; 265860; 265360; 264800; 264180; 263490; 262740; 261920; 261020; 260050;
  259000; 257870; 256650; 255340; 253930; 252410; 250790; 249050; 247200; 245210; 243100; 240850;
  238490; 236020; 233470; 230860; 228210; 225520; 222830; 220150; 217500; 214890; 212320; 209770;
  207240; 204710; 202180; 199630; 197060; 194450; 191800; 189100; 186360; 183600; 180850; 178130;
  175450; 172830; 170310; 167890; 165600; 163450; 161440; 159530; 157730; 156020; 154360; 152760;
  151200; 149650; 148100; 146540; 144970; 143400; 141830; 140260; 138710; 137170; 135650; 134160;
  132700; 131280; 129890; 128560; 127270; 126040; 124870; 123770; 122740; 121780; 120900; 120100;
  119390; 118750; 118180; 117690; 117250; 116880; 116570; 116310; 116100; 115940; 115810; 115730;
  115690; 115690; 115710; 115770; 115850; 115970; 116100; 116260; 116430; 116630; 116850; 117100;
  117370; 117660; 117980; 118330; 118700; 119100; 119540; 120020; 120550; 121140; 121790; 122520;
  123320; 124210; 125200; 126290; 127490; 128830; 130320; 131980; 133810; 135850; 138100; 140570;
  143300; 146290; 149540; 153060; 156850; 160920; 165270; 169890; 174810; 180010; 185500; 191280;
  197350; 203670; 210250; 217070; 224110; 231360; 238800; 246420; 254200; 262130; 270200; 278390;
  286680; 295050; 303490; 311980; 320510; 329050; 337600; 346130; 354640; 363120; 371540; 379910;
  388210; 396430; 404560; 412580; 420500; 428290; 435970; 443520; 450960; 458280; 465480; 472570;
  479560; 486430; 493200; 499860; 506410; 512840; 519150; 525330; 531360; 537260; 543000; 548580;
  554000; 559250; 564340; 569270; 574070; 578720; 583250; 587670; 591970; 596180; 600300; 604340;
  608290; 612160; 615940; 619630; 623240; 626750; 630160; 633480; 636700; 639820; 642850; 645800;
  648680; 651510; 654280; 657020; 659720; 662420; 665100; 667790; 670470; 673160; 675830; 678500;
  681160; 683800; 686420; 689020; 691600; 694150; 696680; 699200; 701710; 704220; 706750; 709290;
  711860; 714460; 717100; 719780; 722490; 725200; 727880; 730500; 733060; 735510; 737830; 740000;
  742000; 743810; 745450; 746960; 748390; 749760; 751110; 752490; 753920; 755440; 757100; 758910;
  760840; 762840; 764850; 766840; 768750; 770530; 772130; 773500; 774600; 776280; 777720; 779160;
  780590; 782010; 783430; 784840; 786240; 787640; 789030; 790410; 791780; 793150; 794520; 795870;
  797220; 798570; 799900; 801230; 802560; 803870; 805180; 806480; 807780; 809070; 810350; 811630;
  812900; 814160; 815420; 816670; 817910; 819150; 820380; 821610; 822820; 824030; 825240; 826440;
  827630; 828810; 829990; 831160; 832330; 833490; 834640; 835790; 836930; 838060; 839190; 840310;
  841420; 842530; 843630; 844730; 845820; 846900; 847980; 849050; 850110; 851170; 852220; 853270;
  854310; 855340; 856370; 857390; 858400; 859410; 860420; 861410; 862400; 863390; 864370; 865340;
  866310; 867270; 868230; 869180].

(** hpp:2206-2246 *)
Definition T_CES03 : list dec := table (-6) [
  8; 641; 1980; 3848; 5605; 6630; 8000; 9467; 11731; 14499; 16937; 19039; 20151; 19922; 18672;
  17729; 17524; 16769; 15711; 13973; 11674; 9649; 8111; 6818; 5726; 5109; 4350; 3574; 3147; 3359;
  3785; 4424; 5293; 6272; 7368; 8737; 10293; 12035; 14144; 16532; 18883; 21246; 23596; 25631; 27417;
  29720; 32465; 35204; 37738; 40150; 41988; 43189; 44156; 45524; 47211; 48964; 50410; 51750; 52855;
  53792; 54566; 55445; 56440; 57083; 57070; 56742; 56205; 55547; 54937; 54413; 54100; 53902; 53774;
  53765; 54203; 54871; 55664; 56679; 57649; 58413; 59081; 59649; 60026; 60341; 60549; 60752; 61032;
  61311; 61645; 62179; 62592; 62958; 63186; 63270; 63130; 63044; 62775; 62329; 61926; 61441; 60687;
  60151; 59726; 59534; 59488; 59669; 59799; 59946; 59870; 59691; 59439; 58867; 58073; 57351; 56628;
  56008; 55706; 55466; 55030; 54521; 53919; 53180; 52790; 52549; 52383; 52021; 51481; 50688; 49959;
  49342; 48948; 48681; 48467; 48208; 47985; 47624; 47382; 47261; 47091; 46776; 46471; 46118; 45696;
  45187; 44646; 43976; 43331; 42642; 41988; 41440; 41024; 40629; 40410; 40326; 40347; 40464; 40826;
  41158; 41509; 41707; 41868; 41924; 41975; 41805; 41803; 41972; 42084; 41975; 41883; 41602; 41234;
  40886; 40741; 40890; 41396; 41849; 42197; 42496; 42671; 42718; 43051; 43563; 44035; 44529; 44840;
  44837; 44615; 44444; 44162; 44104; 44294; 44551; 44879; 45463; 45961; 46315; 46699; 47125; 47595;
  48351; 49141; 49935; 50704; 51166; 51322; 51510; 51805; 52008; 52446; 52802; 53052; 53202; 53442;
  53637; 54138; 54632; 55210; 55836; 56751; 57576; 58628; 59789; 61282; 62793; 64374; 66035; 67686;
  69226; 70720; 72334; 74268; 76501; 78768; 80920; 83096; 85163; 87222; 89622; 92294; 95102; 97902;
  100340; 102350; 104610; 107020; 109280; 111990; 114760; 117120; 118960; 120640; 122030; 123520;
  125020; 126390; 127490; 128650; 129480; 130400; 131630; 133220; 134750; 136320; 137750; 139260;
  140940; 142940; 145140; 147240; 148850; 150030; 151240; 152320; 153510; 155000; 156560; 157590;
  158540; 159530; 160630; 162070; 163850; 165440; 167210; 169080; 170950; 172770; 175020; 176930;
  178480; 180040; 181510; 182910; 184390; 185700; 186640; 187150; 187270; 186890; 186660; 186110;
  185490; 185230; 185170; 185460; 186500; 188170; 189730; 191670; 193570; 195290; 197300; 199360;
  200970; 202330; 202100; 202700; 203930; 203930; 203930; 203930; 208280; 209520; 210770; 212020;
  213280; 214550; 215820; 217090; 218370; 219660; 220950; 222250; 223550; 224850; 226170; 227490;
  228810; 230140; 231470; 232810; 234160; 235510; 236870; 238230; 239590; 240970; 242340; 243730;
  245110; 246510; 247910; 249310; 250720; 252140; 253560; 254980; 256410; 257850; 259290; 260730;
  262190; 263640; 265100; 266570; 268040; 269520; 271000; 272490; 273980; 275480; 276980; 278490;
  280010; 281520; 283050; 284570; 286110; 287640; 289190; 290740; 292290; 293840; 295410; 296970;
  298550; 300120; 301700; 303290; 304880; 306480; 308080; 309680; 311290; 312900; 314520; 316140;
  317770; 319400; 321040].

(** hpp:2247-2287 *)
Definition T_CES04 : list dec := table (-6) [
  473760; 477183; 478810; 478934; 478504; 477931; 476276; 473907; 471000; 467751; 464059; 459961;
  455314; 450429; 445506; 441016; 436857; 432851; 428936; 425136; 421566; 418564; 415470; 412248;
  408937; 405590; 402245; 398946; 395730; 392583; 389496; 386511; 383638; 380829; 378146; 375665;
  373356; 371153; 369062; 367027; 365006; 363034; 361127; 359287; 357609; 356108; 354693; 353333;
  352038; 350730; 349358; 347942; 346500; 345023; 343520; 342000; 340440; 338850; 337233; 335564;
  333824; 332017; 330128; 328158; 326140; 324106; 322044; 319922; 317701; 315345; 312822; 310134;
  307317; 304392; 301351; 298162; 294796; 291244; 287533; 283708; 279821; 275935; 272075; 268214;
  264330; 260421; 256480; 252518; 248569; 244652; 240781; 236962; 233183; 229433; 225723; 222057;
  218439; 214887; 211401; 207976; 204617; 201324; 198093; 194935; 191851; 188837; 185896; 183029;
  180233; 177517; 174885; 172343; 169907; 167590; 165405; 163365; 161482; 159759; 158203; 156816;
  155600; 154554; 153674; 152946; 152357; 151895; 151556; 151335; 151241; 151273; 151434; 151720;
  152130; 152662; 153323; 154120; 155063; 156156; 157403; 158803; 160363; 162086; 163980; 166052;
  168308; 170750; 173384; 176209; 179227; 182445; 185858; 189457; 193242; 197200; 201315; 205585;
  210003; 214554; 219231; 224024; 228918; 233907; 238994; 244167; 249425; 254772; 260204; 265718;
  271317; 276989; 282721; 288507; 294333; 300190; 306085; 312023; 317996; 323994; 330007; 336013;
  342003; 347965; 353876; 359718; 365485; 371163; 376734; 382193; 387538; 392750; 397823; 402754;
  407546; 412215; 416779; 421226; 425540; 429721; 433757; 437633; 441361; 444956; 448415; 451736;
  454918; 457955; 460847; 463605; 466222; 468701; 471052; 473280; 475385; 477382; 479278; 481066;
  482744; 484313; 485775; 487139; 488420; 489630; 490766; 491845; 492880; 493864; 494797; 495698;
  496569; 497412; 498244; 499075; 499901; 500730; 501532; 502290; 503011; 503712; 504383; 505033;
  505666; 506266; 506813; 507310; 507764; 508194; 508609; 509017; 509406; 509769; 510089; 510375;
  510639; 510897; 511155; 511424; 511687; 511936; 512168; 512390; 512617; 512870; 513141; 513432;
  513730; 514023; 514293; 514551; 514792; 515017; 515219; 515394; 515528; 515617; 515658; 515662;
  515634; 515581; 515502; 515400; 515266; 515089; 514861; 514610; 514354; 514104; 513878; 513688;
  513511; 513351; 513222; 513151; 513144; 513201; 513300; 513426; 513472; 513449; 513422; 513398;
  513368; 513380; 513358; 513302; 513217; 513114; 513005; 512908; 512815; 512719; 512615; 512505;
  512387; 512273; 512171; 512082; 512008; 511955; 511919; 511902; 511913; 511965; 512084; 512288;
  512568; 512910; 513293; 513685; 514067; 514454; 514850; 515251; 515648; 516024; 516361; 516666;
  516938; 517270; 517667; 518073; 518488; 518912; 519287; 519661; 520036; 520410; 520785; 521159;
  521534; 521908; 522282; 522657; 523031; 523405; 523780; 524154; 524528; 524902; 525276; 525650;
  526024; 526398; 526772; 527146; 527520; 527894; 528268; 528642; 529016; 529390; 529763; 530137;
  530511; 530884; 531258; 531632; 532005; 532379; 532752; 533126; 533499; 533873; 534246; 534620;
  534993; 535367; 535740; 536113; 536487; 536860; 537233; 537606; 537979; 538352; 538725; 539098;
  539471; 539844; 540216; 540590].

(** hpp:2288-2328 *)
Definition T_CES05 : list dec := table (-6) [
  133510; 134070; 134530; 134900; 135190; 135400; 135540; 135630; 135670; 135680; 135650; 135600;
  135550; 135490; 135440; 135400; 135390; 135420; 135490; 135610; 135790; 136040; 136350; 136720;
  137120; 137570; 138040; 138530; 139020; 139520; 140010; 140480; 140920; 141320; 141670; 141950;
  142150; 142260; 142270; 142170; 141940; 141570; 141080; 140460; 139720; 138870; 137930; 136890;
  135760; 134550; 133270; 131920; 130520; 129050; 127530; 125950; 124330; 122660; 120940; 119180;
  117380; 115550; 113680; 111790; 109870; 107940; 106000; 104040; 102090; 100140; 98190; 96254;
  94332; 92427; 90541; 88677; 86838; 85025; 83243; 81494; 79780; 78104; 76468; 74874; 73325; 71823;
  70368; 68965; 67614; 66319; 65080; 63900; 62779; 61715; 60710; 59762; 58870; 58034; 57254; 56530;
  55860; 55244; 54677; 54156; 53675; 53231; 52819; 52434; 52073; 51729; 51400; 51081; 50772; 50473;
  50185; 49907; 49640; 49385; 49141; 48910; 48690; 48483; 48292; 48118; 47964; 47834; 47728; 47650;
  47603; 47589; 47610; 47669; 47768; 47906; 48087; 48310; 48577; 48890; 49249; 49655; 50110; 50614;
  51162; 51750; 52373; 53024; 53700; 54395; 55103; 55820; 56540; 57259; 57974; 58685; 59387; 60081;
  60764; 61434; 62090; 62729; 63350; 63952; 64541; 65121; 65699; 66281; 66873; 67481; 68111; 68769;
  69460; 70192; 70976; 71825; 72750; 73763; 74878; 76105; 77458; 78949; 80590; 82390; 84350; 86465;
  88734; 91152; 93718; 96428; 99278; 102270; 105390; 108640; 112000; 115440; 118940; 122470; 126010;
  129540; 133020; 136430; 139760; 142970; 146080; 149060; 151940; 154710; 157370; 159930; 162380;
  164730; 166980; 169140; 171240; 173330; 175440; 177630; 179940; 182410; 185070; 187980; 191180;
  194710; 198590; 202850; 207520; 212630; 218190; 224240; 230810; 237910; 245570; 253810; 262630;
  271980; 281850; 292210; 303050; 314330; 326040; 338150; 350630; 363460; 376590; 389970; 403540;
  417260; 431060; 444900; 458730; 472490; 486130; 499600; 512880; 525960; 538800; 551400; 563740;
  575790; 587540; 598970; 610070; 620820; 631220; 641290; 651050; 660510; 669670; 678560; 687190;
  695560; 703700; 711610; 719300; 726770; 734020; 741050; 747870; 754470; 760870; 767050; 773030;
  778800; 784370; 789750; 794940; 799950; 804790; 809450; 813950; 818290; 822480; 826520; 830420;
  834190; 837820; 841330; 844710; 847980; 851130; 854180; 857120; 859970; 862720; 865390; 867980;
  870500; 872950; 875340; 877680; 879970; 882220; 884440; 886620; 888760; 890860; 892920; 894940;
  896920; 898850; 900730; 902560; 904340; 906070; 907740; 909360; 910910; 912410; 913850; 915220;
  916520; 917760; 918930; 920030; 921080; 922080; 923040; 923950; 924840; 925700; 926540; 927370;
  928190; 929020; 929850; 930690; 931560; 932450; 933370; 934330; 935330; 936390; 936740; 937530;
  938310; 939080; 939850; 940600; 941350; 942080; 942810; 943530; 944240; 944940; 945640; 946330;
  947000; 947670; 948330; 948990; 949630; 950270; 950900; 951530; 952140; 952750; 953350; 953940;
  954530; 955110; 955680; 956250; 956810; 957360; 957900; 958440; 958970; 959500; 960010; 960530;
  961030; 961530; 962030; 962510; 963000; 963470; 963940; 964400; 964860; 965310; 965760].

(** hpp:2329-2369 *)
Definition T_CES06 : list dec := table (-6) [
  45250; 46774; 48347; 49969; 51643; 53370; 55151; 56989; 58883; 60837; 62851; 64927; 67066; 69271;
  71543; 73884; 76295; 78778; 81334; 83966; 82492; 87222; 91715; 95975; 100010; 103820; 107400;
  110780; 113940; 116900; 119650; 122200; 124560; 126740; 128720; 130530; 132160; 133610; 134900;
  136030; 136990; 137810; 138480; 139010; 139430; 139750; 139970; 140110; 140170; 140180; 140150;
  140080; 139970; 139840; 139660; 139460; 139210; 138940; 138620; 138270; 137880; 137460; 136990;
  136500; 135970; 135410; 134820; 134190; 133540; 132870; 132170; 131440; 130690; 129930; 129140;
  128350; 127540; 126730; 125920; 125100; 124280; 123470; 122650; 121840; 121030; 120210; 119390;
  118560; 117720; 116870; 116000; 115120; 114230; 113340; 112450; 111570; 110690; 109840; 109000;
  108200; 107430; 106690; 106000; 105340; 104720; 104130; 103580; 103070; 102580; 102130; 101710;
  101320; 100960; 100620; 100290; 99987; 99693; 99406; 99124; 98842; 98557; 98267; 97973; 97681;
  97393; 97115; 96849; 96600; 96372; 96169; 95995; 95852; 95744; 95670; 95631; 95629; 95663; 95736;
  95848; 95999; 96192; 96425; 96700; 97016; 97372; 97768; 98203; 98678; 99191; 99742; 100330;
  100960; 101620; 102330; 103080; 103880; 104720; 105620; 106560; 107560; 108610; 109720; 110890;
  112110; 113390; 114720; 116110; 117560; 119050; 120610; 122210; 123870; 125580; 127350; 129160;
  131040; 132960; 134950; 136990; 139080; 141230; 143440; 145700; 148010; 150360; 152750; 155180;
  157640; 160130; 162650; 165180; 167730; 170290; 172850; 175410; 177960; 180490; 183000; 185470;
  187920; 190310; 192660; 194960; 197220; 199420; 201570; 203680; 205730; 207740; 209690; 211600;
  213460; 215270; 217010; 218690; 220300; 221830; 223280; 224640; 225910; 227080; 228140; 229100;
  229960; 230720; 231390; 231950; 232420; 232800; 233090; 233280; 233390; 233430; 233400; 233310;
  233180; 233020; 232840; 232650; 232470; 232300; 232160; 232060; 232010; 232040; 232150; 232370;
  232700; 233170; 233790; 234570; 235520; 236670; 238010; 239560; 241320; 243310; 245530; 247990;
  250710; 253690; 256930; 260460; 264290; 268420; 272870; 277640; 282770; 288240; 294080; 300300;
  306910; 313890; 321240; 328920; 336950; 345280; 353930; 362850; 372060; 381510; 391210; 401110;
  411150; 421290; 431490; 441700; 451870; 461940; 471890; 481650; 491190; 500510; 509610; 518510;
  527200; 535700; 544010; 552140; 560100; 567890; 575520; 582980; 590270; 597380; 604300; 611030;
  617560; 623890; 630000; 635890; 641560; 646990; 652180; 657120; 661810; 666240; 670410; 674300;
  677910; 681230; 689250; 693970; 698640; 703270; 707860; 712410; 716920; 721380; 725800; 730170;
  734510; 738790; 743040; 747230; 751380; 755490; 759550; 763560; 767530; 771450; 775320; 779140;
  782920; 786660; 790340; 793980; 797570; 801110; 804610; 808060; 811470; 814820; 818130; 821400;
  824620; 827790; 830920; 834000; 837040; 840030; 842980; 845880; 848740; 851550; 854330; 857050;
  859740; 862380; 864980; 867540; 870060; 872540; 874980; 877380; 879730; 882050; 884330; 886570;
  888780; 890940; 893070; 895160; 897220; 899240; 901220; 903170; 905090; 906970; 908820; 910630;
  912410; 914160; 915880; 917570; 919230; 920850; 922450; 924010; 925550].

(** hpp:2370-2410 *)
Definition T_CES07 : list dec := table (-6) [
  60013; 59927; 59841; 59755; 59670; 59584; 59499; 59413; 59328; 59243; 59158; 59073; 58988; 58903;
  58819; 58734; 58650; 58566; 58482; 58398; 58300; 58238; 58159; 58068; 57967; 57858; 57745; 57630;
  57515; 57404; 57300; 57204; 57118; 57042; 56976; 56919; 56874; 56839; 56814; 56802; 56800; 56810;
  56830; 56859; 56896; 56939; 56987; 57038; 57092; 57146; 57200; 57252; 57302; 57350; 57395; 57437;
  57477; 57513; 57545; 57575; 57600; 57621; 57636; 57643; 57640; 57625; 57596; 57551; 57488; 57405;
  57300; 57172; 57022; 56852; 56665; 56463; 56248; 56022; 55787; 55546; 55300; 55052; 54803; 54554;
  54306; 54060; 53817; 53579; 53346; 53119; 52900; 52689; 52487; 52292; 52104; 51923; 51748; 51579;
  51415; 51255; 51100; 50949; 50801; 50658; 50519; 50385; 50257; 50134; 50016; 49905; 49800; 49702;
  49609; 49522; 49440; 49361; 49285; 49212; 49141; 49070; 49000; 48930; 48860; 48791; 48724; 48659;
  48598; 48541; 48488; 48441; 48400; 48366; 48337; 48314; 48295; 48278; 48263; 48249; 48234; 48218;
  48200; 48179; 48154; 48127; 48098; 48067; 48035; 48002; 47968; 47934; 47900; 47867; 47835; 47805;
  47777; 47753; 47732; 47716; 47705; 47699; 47700; 47707; 47721; 47741; 47766; 47796; 47830; 47868;
  47910; 47954; 48000; 48048; 48100; 48156; 48218; 48288; 48366; 48455; 48556; 48671; 48800; 48946;
  49109; 49293; 49499; 49729; 49984; 50267; 50579; 50923; 51300; 51713; 52170; 52681; 53254; 53897;
  54621; 55435; 56346; 57365; 58500; 59761; 61163; 62720; 64446; 66357; 68467; 70792; 73346; 76144;
  79200; 82530; 86152; 90082; 94338; 98938; 103900; 109240; 114970; 121120; 127700; 134720; 142170;
  150020; 158250; 166830; 175750; 184980; 194500; 204280; 214300; 224540; 234950; 245490; 256110;
  266770; 277410; 288010; 298500; 308850; 319000; 328920; 338580; 347970; 357050; 365800; 374220;
  382260; 389930; 397180; 404000; 410380; 416320; 421850; 426980; 431720; 436100; 440130; 443830;
  447210; 450300; 453110; 455650; 457950; 460020; 461880; 463540; 465030; 466360; 467540; 468600;
  469550; 470390; 471130; 471770; 472300; 472750; 473090; 473350; 473520; 473600; 473600; 473520;
  473380; 473190; 472960; 472690; 472400; 472100; 471790; 471500; 471220; 470970; 470730; 470500;
  470300; 470110; 469940; 469780; 469630; 469500; 469380; 469270; 469160; 469040; 468910; 468770;
  468600; 468400; 468170; 467900; 467580; 467230; 466850; 466460; 466070; 465690; 465330; 465010;
  464730; 464500; 464160; 463860; 463560; 463260; 462970; 462670; 462370; 462070; 461780; 461480;
  461180; 460880; 460580; 460290; 459990; 459690; 459390; 459100; 458800; 458500; 458210; 457910;
  457610; 457310; 457020; 456720; 456420; 456120; 455830; 455530; 455230; 454940; 454640; 454340;
  454040; 453750; 453450; 453150; 452860; 452560; 452260; 451970; 451670; 451370; 451080; 450780;
  450480; 450190; 449890; 449590; 449300; 449000; 448710; 448410; 448110; 447820; 447520; 447220;
  446930; 446630; 446340; 446040; 445740; 445450; 445150; 444860; 444560; 444270; 443970; 443670;
  443380; 443080; 442790; 442490; 442200; 441900; 441610; 441310; 441010].

(** hpp:2411-2451 *)
Definition T_CES08 : list dec := table (-6) [
  58180; 58588; 58930; 59212; 59437; 59610; 59734; 59815; 59857; 59864; 59840; 59790; 59717; 59627;
  59523; 59410; 59293; 59175; 59060; 58954; 58860; 58782; 58717; 58664; 58619; 58579; 58541; 58504;
  58463; 58416; 58360; 58293; 58218; 58138; 58055; 57973; 57896; 57826; 57766; 57719; 57690; 57679;
  57686; 57705; 57735; 57772; 57813; 57855; 57893; 57926; 57950; 57962; 57963; 57952; 57932; 57902;
  57864; 57818; 57764; 57705; 57640; 57570; 57498; 57425; 57354; 57286; 57223; 57169; 57123; 57090;
  57070; 57065; 57073; 57091; 57116; 57145; 57176; 57204; 57228; 57244; 57250; 57243; 57224; 57195;
  57158; 57113; 57064; 57012; 56957; 56903; 56850; 56800; 56754; 56710; 56669; 56631; 56595; 56561;
  56529; 56499; 56470; 56443; 56415; 56388; 56358; 56326; 56290; 56250; 56204; 56151; 56090; 56021;
  55945; 55864; 55779; 55692; 55605; 55520; 55438; 55361; 55290; 55227; 55173; 55125; 55085; 55051;
  55023; 55000; 54982; 54969; 54960; 54954; 54951; 54950; 54949; 54948; 54946; 54942; 54936; 54925;
  54910; 54889; 54864; 54835; 54803; 54768; 54732; 54695; 54659; 54623; 54590; 54559; 54531; 54506;
  54483; 54464; 54447; 54433; 54423; 54415; 54410; 54408; 54409; 54412; 54416; 54421; 54426; 54431;
  54436; 54439; 54440; 54439; 54437; 54436; 54438; 54443; 54453; 54471; 54497; 54532; 54580; 54640;
  54714; 54799; 54896; 55005; 55126; 55257; 55398; 55549; 55710; 55881; 56070; 56283; 56530; 56818;
  57154; 57548; 58006; 58538; 59150; 59852; 60654; 61570; 62611; 63788; 65116; 66604; 68267; 70114;
  72160; 74415; 76892; 79602; 82557; 85769; 89248; 93007; 97058; 101410; 106080; 111070; 116380;
  122010; 127940; 134170; 140700; 147510; 154610; 161980; 169620; 177520; 185660; 194010; 202570;
  211300; 220180; 229200; 238330; 247550; 256840; 266180; 275540; 284920; 294300; 303660; 312980;
  322250; 331460; 340570; 349590; 358490; 367260; 375880; 384350; 392660; 400780; 408720; 416450;
  423960; 431250; 438300; 445110; 451690; 458050; 464170; 470080; 475780; 481260; 486530; 491600;
  496470; 501150; 505630; 509930; 514060; 518010; 521800; 525420; 528880; 532200; 535370; 538400;
  541310; 544090; 546760; 549320; 551790; 554170; 556470; 558700; 560860; 562970; 565020; 567020;
  568970; 570870; 572730; 574560; 576360; 578120; 579860; 581570; 583270; 584950; 586620; 588270;
  589910; 591550; 593190; 594830; 596470; 598110; 599750; 601390; 603030; 604660; 606280; 607890;
  609500; 611090; 612670; 614230; 615770; 617290; 618780; 620240; 621670; 623070; 624420; 625740;
  627010; 628240; 629440; 630600; 631730; 632840; 633930; 634990; 636050; 637090; 638130; 639160;
  640200; 641240; 642280; 643350; 644420; 645520; 646640; 647790; 648670; 649720; 650770; 651810;
  652850; 653890; 654930; 655970; 657000; 658040; 659070; 660100; 661130; 662160; 663190; 664210;
  665240; 666260; 667280; 668300; 669320; 670330; 671350; 672360; 673370; 674380; 675390; 676390;
  677400; 678400; 679400; 680400; 681400; 682400; 683390; 684390; 685380; 686370; 687350; 688340;
  689330; 690310; 691290; 692270; 693250; 694220; 695200; 696170; 697140].

(** hpp:2452-2492 *)
Definition T_CES09 : list dec := table (-6) [
  41573; 41603; 41633; 41663; 41693; 41723; 41753; 41783; 41813; 41843; 41873; 41903; 41933; 41964;
  41994; 42024; 42054; 42085; 42115; 42145; 42249; 42248; 42252; 42261; 42274; 42292; 42314; 42342;
  42375; 42413; 42455; 42503; 42556; 42615; 42679; 42748; 42822; 42902; 42988; 43080; 43177; 43279;
  43388; 43501; 43619; 43742; 43869; 44000; 44134; 44272; 44413; 44557; 44703; 44852; 45003; 45157;
  45313; 45471; 45631; 45794; 45959; 46126; 46294; 46465; 46638; 46812; 46989; 47167; 47346; 47528;
  47711; 47895; 48079; 48262; 48441; 48616; 48784; 48944; 49094; 49233; 49359; 49472; 49571; 49659;
  49737; 49806; 49869; 49926; 49980; 50031; 50081; 50132; 50189; 50256; 50339; 50441; 50568; 50725;
  50916; 51146; 51420; 51742; 52106; 52507; 52939; 53397; 53873; 54363; 54860; 55358; 55851; 56334;
  56801; 57245; 57662; 58045; 58388; 58686; 58934; 59124; 59252; 59313; 59312; 59253; 59143; 58987;
  58790; 58557; 58296; 58010; 57706; 57389; 57060; 56721; 56374; 56020; 55661; 55298; 54933; 54567;
  54203; 53840; 53479; 53119; 52760; 52402; 52043; 51684; 51323; 50961; 50596; 50229; 49858; 49483;
  49103; 48717; 48325; 47926; 47520; 47104; 46680; 46246; 45805; 45358; 44907; 44455; 44004; 43556;
  43112; 42676; 42249; 41834; 41435; 41056; 40702; 40378; 40089; 39838; 39630; 39471; 39364; 39313;
  39315; 39367; 39465; 39604; 39783; 39996; 40240; 40512; 40807; 41122; 41457; 41811; 42185; 42578;
  42990; 43421; 43870; 44339; 44825; 45330; 45851; 46387; 46936; 47495; 48063; 48639; 49220; 49804;
  50390; 50975; 51556; 52128; 52687; 53230; 53751; 54247; 54714; 55147; 55542; 55897; 56212; 56492;
  56739; 56957; 57148; 57315; 57462; 57591; 57706; 57810; 57903; 57987; 58064; 58134; 58199; 58260;
  58317; 58373; 58428; 58483; 58538; 58593; 58648; 58701; 58754; 58804; 58853; 58899; 58943; 58984;
  59025; 59068; 59116; 59172; 59238; 59318; 59414; 59528; 59664; 59823; 60004; 60204; 60421; 60651;
  60894; 61146; 61404; 61667; 61931; 62195; 62456; 62712; 62961; 63201; 63431; 63647; 63849; 64033;
  64198; 64343; 64468; 64574; 64664; 64738; 64797; 64844; 64879; 64904; 64919; 64928; 64929; 64923;
  64911; 64892; 64867; 64836; 64800; 64759; 64713; 64663; 64608; 64548; 64483; 64413; 64339; 64260;
  64176; 64086; 63992; 63893; 63788; 63678; 63563; 63442; 63316; 63184; 63047; 62904; 62756; 62728;
  62617; 62505; 62394; 62283; 62173; 62062; 61952; 61842; 61732; 61622; 61512; 61403; 61294; 61184;
  61076; 60967; 60858; 60750; 60642; 60534; 60426; 60318; 60211; 60104; 59997; 59890; 59783; 59676;
  59570; 59464; 59358; 59252; 59146; 59041; 58936; 58830; 58725; 58621; 58516; 58412; 58307; 58203;
  58099; 57996; 57892; 57789; 57686; 57582; 57480; 57377; 57274; 57172; 57070; 56968; 56866; 56764;
  56663; 56562; 56460; 56359; 56259; 56158; 56057; 55957; 55857; 55757; 55657; 55558; 55458; 55359;
  55260; 55161; 55062; 54963; 54865; 54767; 54668; 54570].

(** hpp:2493-2533 *)
Definition T_CES10 : list dec := table (-6) [
  176020; 177150; 178280; 179420; 180570; 181720; 182870; 184040; 185200; 186380; 187560; 188740;
  189930; 191130; 192330; 193540; 194760; 195970; 197200; 198430; 199830; 200810; 202010; 203370;
  204810; 206280; 207690; 208990; 210110; 210970; 211520; 211690; 211520; 211060; 210350; 209440;
  208380; 207200; 205970; 204730; 203520; 202380; 201310; 200320; 199380; 198500; 197670; 196890;
  196140; 195420; 194730; 194050; 193390; 192750; 192120; 191490; 190880; 190260; 189650; 189030;
  188420; 187790; 187170; 186540; 185910; 185290; 184670; 184060; 183460; 182880; 182310; 181750;
  181220; 180710; 180230; 179780; 179350; 178970; 178620; 178300; 178040; 177810; 177620; 177460;
  177320; 177180; 177050; 176910; 176760; 176580; 176370; 176110; 175810; 175470; 175090; 174670;
  174200; 173690; 173140; 172550; 171920; 171250; 170550; 169820; 169080; 168340; 167600; 166880;
  166170; 165510; 164880; 164300; 163780; 163300; 162880; 162500; 162170; 161890; 161660; 161480;
  161350; 161260; 161210; 161190; 161190; 161200; 161210; 161220; 161210; 161180; 161110; 161000;
  160870; 160730; 160590; 160470; 160390; 160360; 160400; 160530; 160750; 161090; 161550; 162110;
  162790; 163570; 164460; 165460; 166550; 167750; 169040; 170430; 171920; 173490; 175150; 176890;
  178710; 180610; 182580; 184630; 186730; 188910; 191160; 193500; 195940; 198500; 201200; 204030;
  207030; 210190; 213550; 217100; 220850; 224820; 229020; 233450; 238120; 243040; 248220; 253660;
  259380; 265390; 271740; 278490; 285700; 293410; 301680; 310580; 320160; 330470; 341570; 353500;
  366210; 379620; 393680; 408300; 423420; 438960; 454870; 471070; 487490; 504060; 520710; 537390;
  554010; 570530; 586860; 602950; 618720; 634120; 649080; 663530; 677460; 690850; 703690; 715960;
  727650; 738740; 749220; 759080; 768300; 776870; 784800; 792140; 798890; 805080; 810730; 815880;
  820540; 824730; 828490; 831830; 834800; 837430; 839770; 841850; 843710; 845400; 846950; 848400;
  849790; 851150; 852490; 853810; 855100; 856370; 857600; 858800; 859960; 861090; 862170; 863210;
  864210; 865170; 866080; 866950; 867770; 868550; 869290; 869990; 870640; 871250; 871820; 872360;
  872870; 873370; 873850; 874320; 874790; 875270; 875750; 876240; 876750; 877250; 877750; 878220;
  878680; 879100; 879490; 879820; 880110; 880330; 880490; 880610; 880690; 880740; 880760; 880760;
  880760; 880750; 880750; 880760; 880780; 880810; 880840; 880860; 880880; 880890; 880890; 880870;
  880830; 880770; 880690; 880600; 880510; 880440; 880380; 880350; 880350; 880400; 880500; 880660;
  880870; 881110; 881380; 881670; 881960; 882240; 882500; 882720; 882910; 883180; 883410; 883650;
  883890; 884120; 884360; 884590; 884830; 885060; 885290; 885520; 885760; 885990; 886220; 886450;
  886680; 886910; 887140; 887370; 887600; 887830; 888060; 888290; 888510; 888740; 888970; 889190;
  889420; 889640; 889870; 890090; 890320; 890540; 890770; 890990; 891210; 891430; 891660; 891880;
  892100; 892320; 892540; 892760; 892980; 893200; 893420; 893630; 893850; 894070; 894290; 894500;
  894720; 894940; 895150; 895370; 895580; 895800; 896010; 896220; 896440; 896650; 896860; 897070;
  897290; 897500; 897710; 897920; 898130; 898340; 898550; 898760; 898960; 899170; 899380; 899590;
  899800; 900000; 900210; 900410].

(** hpp:2534-2574 *)
Definition T_CES11 : list dec := table (-6) [
  39511; 40462; 41434; 42429; 43447; 44489; 45554; 46643; 47757; 48896; 50061; 51253; 52471; 53716;
  54989; 56291; 57621; 58981; 60371; 61792; 60810; 63415; 65866; 68166; 70318; 72327; 74195; 75925;
  77521; 78986; 80324; 81538; 82630; 83606; 84466; 85217; 85859; 86397; 86835; 87175; 87420; 87576;
  87650; 87652; 87591; 87477; 87319; 87126; 86908; 86675; 86435; 86195; 85956; 85711; 85459; 85196;
  84917; 84619; 84299; 83953; 83576; 83168; 82726; 82251; 81745; 81206; 80637; 80037; 79407; 78747;
  78057; 77339; 76595; 75826; 75036; 74227; 73400; 72560; 71707; 70845; 69976; 69101; 68221; 67335;
  66442; 65542; 64633; 63717; 62791; 61855; 60908; 59952; 58989; 58027; 57069; 56123; 55192; 54284;
  53402; 52553; 51742; 50974; 50249; 49566; 48925; 48326; 47767; 47248; 46769; 46329; 45928; 45563;
  45233; 44933; 44660; 44410; 44178; 43961; 43756; 43559; 43365; 43172; 42981; 42793; 42609; 42432;
  42262; 42101; 41951; 41814; 41690; 41581; 41488; 41412; 41352; 41311; 41288; 41284; 41300; 41337;
  41394; 41473; 41577; 41709; 41871; 42067; 42300; 42573; 42889; 43250; 43661; 44125; 44656; 45268;
  45974; 46791; 47732; 48811; 50043; 51442; 53024; 54801; 56791; 59008; 61468; 64186; 67178; 70459;
  74046; 77953; 82197; 86789; 91729; 97014; 102640; 108610; 114910; 121540; 128500; 135790; 143400;
  151320; 159530; 167990; 176660; 185520; 194520; 203640; 212830; 222070; 231310; 240540; 249700;
  258770; 267720; 276510; 285120; 293490; 301620; 309450; 316960; 324120; 330930; 337400; 343530;
  349330; 354800; 359950; 364780; 369310; 373530; 377460; 381100; 384480; 387610; 390510; 393180;
  395660; 397940; 400060; 402010; 403830; 405520; 407100; 408570; 409960; 411270; 412510; 413710;
  414870; 416010; 417140; 418260; 419390; 420540; 421720; 422930; 424190; 425500; 426880; 428330;
  429860; 431480; 433180; 434960; 436840; 438800; 440850; 442990; 445220; 447550; 449960; 452470;
  455050; 457710; 460450; 463240; 466090; 469000; 471950; 474950; 477980; 481060; 484190; 487390;
  490660; 494030; 497490; 501050; 504740; 508550; 512510; 516590; 520810; 525150; 529620; 534210;
  538920; 543740; 548660; 553690; 558820; 564030; 569280; 574550; 579820; 585050; 590230; 595320;
  600300; 605140; 609820; 614360; 618760; 623060; 627260; 631390; 635460; 639490; 643510; 647520;
  651550; 655580; 659600; 663620; 667600; 671550; 675450; 679290; 683060; 686750; 690340; 693840;
  697220; 700480; 703600; 706580; 709400; 712050; 714520; 716810; 721660; 724740; 727800; 730850;
  733860; 736860; 739840; 742790; 745720; 748630; 751520; 754390; 757230; 760050; 762850; 765620;
  768370; 771100; 773810; 776500; 779160; 781800; 784410; 787010; 789580; 792120; 794650; 797150;
  799630; 802090; 804520; 806930; 809320; 811690; 814030; 816350; 818650; 820920; 823180; 825410;
  827620; 829800; 831970; 834110; 836230; 838330; 840410; 842460; 844490; 846510; 848500; 850470;
  852410; 854340; 856250; 858130; 860000; 861840; 863670; 865470; 867250; 869020; 870760; 872480;
  874190; 875870; 877540; 879180; 880810; 882420; 884010; 885580; 887130; 888660; 890180; 891670;
  893150; 894610; 896060].

(** hpp:2575-2615 *)
Definition T_CES12 : list dec := table (-6) [
  241670; 237160; 232670; 227810; 222130; 216220; 210720; 204830; 198910; 192980; 186870; 180780;
  175420; 170620; 166080; 162040; 158330; 154020; 150850; 148150; 145140; 142150; 139490; 136460;
  133080; 129810; 126550; 123400; 120610; 118020; 115360; 113190; 111050; 108840; 107070; 105840;
  105190; 104970; 104900; 104720; 104300; 103830; 102810; 101450; 99815; 98708; 97967; 96978; 95877;
  95158; 94833; 94687; 94808; 95574; 96729; 97671; 98137; 98167; 98439; 98831; 98292; 97482; 96940;
  96416; 95543; 94735; 95001; 95409; 95288; 94672; 93947; 93808; 93406; 92917; 92431; 91913; 91230;
  90197; 88798; 87422; 86025; 84641; 83285; 82259; 82097; 81328; 80320; 79021; 77459; 76197; 75411;
  74464; 73308; 72032; 70652; 68276; 66607; 65116; 63658; 62596; 61592; 60002; 58833; 58186; 57778;
  57188; 56242; 55110; 54417; 54342; 54162; 53723; 53394; 52825; 51979; 50865; 50007; 49561; 49321;
  49053; 48672; 48363; 48595; 49059; 49520; 49948; 50598; 50997; 51167; 51604; 52351; 53125; 53939;
  54441; 54939; 55646; 56306; 56772; 57617; 58880; 59795; 60268; 60745; 61345; 62326; 63376; 64193;
  65223; 67008; 69284; 71189; 73067; 75259; 77662; 80018; 82032; 84366; 87440; 90541; 93574; 96584;
  99907; 103400; 106830; 110170; 113740; 117600; 121370; 125090; 128740; 132500; 136330; 140610;
  145390; 150190; 155160; 160280; 165590; 171190; 176960; 183310; 189980; 196770; 203500; 210000;
  216580; 223300; 230350; 237750; 245500; 253340; 260960; 268430; 275780; 283420; 291350; 299790;
  308750; 316890; 325510; 333920; 342430; 351640; 361310; 370680; 379660; 388760; 398000; 407260;
  417390; 426910; 436060; 445220; 454250; 462800; 471370; 480490; 489300; 497370; 505020; 512600;
  520250; 528610; 535610; 542050; 548740; 555880; 562180; 567910; 574020; 579600; 584770; 589490;
  593210; 598320; 603020; 607080; 610670; 614310; 618260; 622300; 625890; 629400; 632680; 635720;
  637690; 639890; 642050; 643840; 645530; 647590; 649760; 651870; 653790; 655390; 657050; 659020;
  660820; 661820; 663880; 666060; 667590; 668480; 670130; 671120; 672390; 674080; 675780; 677160;
  678650; 678830; 678630; 678060; 677150; 675990; 675620; 675860; 675900; 675440; 675220; 675550;
  676060; 676750; 677620; 678220; 678850; 679440; 678950; 678020; 677900; 678210; 678340; 678110;
  677300; 677170; 678430; 679340; 679820; 680560; 681540; 681610; 681270; 681350; 682300; 683680;
  684120; 683410; 683070; 682890; 682770; 682730; 683040; 683700; 683670; 683630; 683250; 682010;
  686530; 683100; 686760; 686760; 685530; 685750; 685960; 686170; 686390; 686600; 686810; 687030;
  687240; 687450; 687660; 687880; 688090; 688300; 688510; 688730; 688940; 689150; 689360; 689570;
  689790; 690000; 690210; 690420; 690630; 690850; 691060; 691270; 691480; 691690; 691900; 692110;
  692320; 692530; 692750; 692960; 693170; 693380; 693590; 693800; 694010; 694220; 694430; 694640;
  694850; 695060; 695270; 695480; 695690; 695900; 696110; 696320; 696530; 696740; 696950; 697150;
  697360; 697570; 697780; 697990; 698200; 698410; 698620; 698820; 699030; 699240; 699450; 699660;
  699870; 700070; 700280; 700490; 700700; 700900; 701110; 701320; 701530; 701730; 701940].

(** hpp:2616-2656 *)
Definition T_CES13 : list dec := table (-6) [
  43374; 43365; 43356; 43347; 43338; 43329; 43319; 43310; 43301; 43292; 43283; 43274; 43265; 43256;
  43247; 43238; 43229; 43220; 43211; 43202; 43269; 43231; 43196; 43164; 43136; 43112; 43092; 43078;
  43069; 43066; 43070; 43081; 43099; 43125; 43159; 43202; 43255; 43317; 43389; 43472; 43566; 43672;
  43788; 43913; 44047; 44187; 44333; 44485; 44640; 44797; 44956; 45115; 45272; 45426; 45574; 45715;
  45847; 45968; 46076; 46169; 46246; 46305; 46348; 46377; 46397; 46408; 46415; 46419; 46424; 46431;
  46444; 46465; 46490; 46515; 46536; 46549; 46549; 46533; 46497; 46435; 46345; 46224; 46078; 45914;
  45741; 45567; 45400; 45247; 45117; 45017; 44956; 44941; 44983; 45093; 45280; 45555; 45930; 46414;
  47018; 47752; 48628; 49650; 50810; 52093; 53485; 54970; 56536; 58168; 59851; 61572; 63315; 65067;
  66815; 68546; 70247; 71905; 73506; 75039; 76490; 77846; 79094; 80226; 81246; 82164; 82990; 83734;
  84403; 85009; 85561; 86067; 86537; 86979; 87391; 87769; 88108; 88406; 88657; 88857; 89004; 89092;
  89118; 89079; 88978; 88821; 88612; 88356; 88057; 87721; 87353; 86957; 86537; 86099; 85641; 85164;
  84665; 84144; 83601; 83033; 82441; 81823; 81178; 80507; 79814; 79106; 78389; 77668; 76951; 76242;
  75549; 74876; 74232; 73619; 73039; 72491; 71974; 71486; 71028; 70598; 70195; 69819; 69468; 69143;
  68847; 68587; 68367; 68192; 68068; 67999; 67991; 68049; 68178; 68388; 68710; 69178; 69827; 70693;
  71810; 73213; 74938; 77019; 79491; 82379; 85660; 89302; 93272; 97538; 102070; 106830; 111790;
  116910; 122160; 127520; 132950; 138410; 143880; 149330; 154730; 160040; 165230; 170280; 175160;
  179830; 184310; 188610; 192750; 196720; 200560; 204270; 207860; 211350; 214760; 218080; 221310;
  224450; 227470; 230370; 233120; 235730; 238180; 240460; 242540; 244440; 246140; 247680; 249060;
  250300; 251410; 252400; 253300; 254110; 254850; 255530; 256160; 256740; 257290; 257810; 258310;
  258790; 259260; 259730; 260210; 260690; 261180; 261680; 262170; 262660; 263140; 263610; 264050;
  264480; 264870; 265240; 265570; 265880; 266160; 266410; 266640; 266850; 267040; 267200; 267350;
  267490; 267600; 267700; 267780; 267850; 267900; 267940; 267960; 267960; 267950; 267920; 267880;
  267830; 267770; 267700; 267630; 267560; 267480; 267420; 267350; 267300; 267250; 267200; 267170;
  267130; 267100; 267060; 267030; 266990; 266960; 266910; 266870; 266810; 266750; 266680; 266600;
  266510; 266410; 266290; 266160; 266230; 266170; 266110; 266040; 265980; 265920; 265850; 265790;
  265730; 265660; 265600; 265540; 265470; 265410; 265350; 265280; 265220; 265160; 265090; 265030;
  264970; 264900; 264840; 264780; 264710; 264650; 264590; 264520; 264460; 264400; 264330; 264270;
  264210; 264140; 264080; 264020; 263950; 263890; 263830; 263760; 263700; 263640; 263570; 263510;
  263450; 263380; 263320; 263260; 263190; 263130; 263070; 263010; 262940; 262880; 262820; 262750;
  262690; 262630; 262560; 262500; 262440; 262380; 262310; 262250; 262190; 262120; 262060; 262000;
  261940; 261870; 261810; 261750; 261680; 261620; 261560; 261500; 261430; 261370; 261310].

(** hpp:2657-2697 *)
Definition T_CES14 : list dec := table (-6) [
  335320; 335620; 335920; 336220; 336530; 336830; 337130; 337430; 337730; 338030; 338330; 338630;
  338930; 339240; 339540; 339840; 340140; 340440; 340750; 341050; 341400; 341630; 341910; 342240;
  342610; 343010; 343430; 343850; 344280; 344700; 345100; 345470; 345820; 346150; 346460; 346760;
  347050; 347340; 347620; 347910; 348200; 348500; 348810; 349120; 349440; 349760; 350080; 350400;
  350710; 351010; 351300; 351580; 351850; 352110; 352370; 352610; 352860; 353090; 353330; 353560;
  353800; 354040; 354270; 354510; 354750; 354990; 355240; 355480; 355720; 355960; 356200; 356440;
  356680; 356910; 357150; 357380; 357610; 357840; 358060; 358280; 358500; 358710; 358920; 359130;
  359340; 359550; 359770; 359990; 360220; 360450; 360700; 360960; 361220; 361490; 361770; 362050;
  362330; 362610; 362880; 363140; 363400; 363650; 363880; 364110; 364330; 364540; 364760; 364970;
  365180; 365390; 365600; 365820; 366040; 366270; 366510; 366760; 367020; 367300; 367580; 367880;
  368200; 368540; 368890; 369270; 369670; 370090; 370550; 371040; 371550; 372110; 372700; 373330;
  374000; 374710; 375460; 376250; 377080; 377950; 378860; 379810; 380800; 381830; 382890; 383970;
  385060; 386140; 387210; 388250; 389250; 390210; 391100; 391930; 392680; 393370; 394000; 394570;
  395080; 395530; 395940; 396290; 396600; 396860; 397090; 397270; 397420; 397530; 397600; 397640;
  397660; 397640; 397600; 397540; 397460; 397380; 397320; 397280; 397280; 397330; 397440; 397630;
  397900; 398270; 398760; 399370; 400120; 401030; 402100; 403340; 404790; 406430; 408300; 410390;
  412690; 415170; 417810; 420580; 423450; 426410; 429420; 432460; 435500; 438520; 441510; 444440;
  447310; 450090; 452770; 455340; 457780; 460070; 462200; 464160; 465950; 467580; 469070; 470430;
  471670; 472790; 473810; 474750; 475600; 476390; 477110; 477770; 478390; 478950; 479470; 479950;
  480390; 480810; 481200; 481570; 481920; 482250; 482570; 482860; 483140; 483410; 483650; 483880;
  484100; 484300; 484490; 484670; 484830; 484980; 485130; 485260; 485380; 485490; 485600; 485700;
  485790; 485890; 485980; 486070; 486180; 486290; 486410; 486550; 486700; 486870; 487060; 487260;
  487470; 487680; 487890; 488110; 488310; 488510; 488700; 488870; 489030; 489170; 489300; 489410;
  489510; 489600; 489680; 489740; 489800; 489850; 489890; 489920; 489960; 489990; 490030; 490080;
  490140; 490210; 490300; 490410; 490530; 490670; 490820; 490980; 491160; 491340; 491520; 491710;
  491900; 492090; 492280; 492460; 492650; 492830; 493010; 493190; 493360; 493530; 493700; 493860;
  494020; 494170; 494310; 494440; 494560; 494670; 494760; 494840; 494900; 495000; 495090; 495170;
  495260; 495340; 495430; 495510; 495600; 495680; 495770; 495850; 495940; 496020; 496110; 496190;
  496280; 496360; 496450; 496530; 496620; 496700; 496790; 496870; 496960; 497040; 497130; 497210;
  497300; 497380; 497470; 497550; 497640; 497720; 497810; 497890; 497980; 498060; 498150; 498230;
  498320; 498400; 498490; 498570; 498660; 498740; 498830; 498910; 499000; 499080; 499170; 499250;
  499340; 499420; 499510; 499590; 499680; 499760; 499850; 499930; 500020; 500100; 500190; 500270;
  500360; 500440; 500530; 500610; 500700; 500780; 500870; 500950; 501040; 501120; 501210; 501290;
  501380; 501460; 501550; 501630].

(** hpp:2698-2738 *)
Definition T_CES15 : list dec := table (-6) [
  169920; 170520; 171130; 171730; 172340; 172950; 173560; 174170; 174790; 175400; 176020; 176640;
  177260; 177880; 178510; 179130; 179760; 180390; 181020; 181660; 181410; 182510; 183490; 184390;
  185200; 185930; 186600; 187210; 187780; 188320; 188830; 189330; 189820; 190320; 190830; 191370;
  191940; 192560; 193240; 193970; 194790; 195690; 196680; 197770; 198970; 200290; 201730; 203310;
  205020; 206880; 208900; 211070; 213390; 215830; 218390; 221030; 223740; 226500; 229300; 232110;
  234920; 237700; 240460; 243190; 245870; 248510; 251100; 253630; 256100; 258510; 260830; 263080;
  265250; 267350; 269380; 271350; 273240; 275080; 276860; 278590; 280270; 281900; 283490; 285030;
  286530; 287990; 289420; 290810; 292170; 293500; 294800; 296070; 297320; 298540; 299750; 300930;
  302100; 303250; 304380; 305500; 306600; 307700; 308790; 309880; 310980; 312080; 313210; 314360;
  315530; 316740; 318000; 319290; 320620; 321980; 323370; 324760; 326170; 327570; 328960; 330340;
  331680; 333000; 334270; 335480; 336620; 337670; 338620; 339460; 340180; 340760; 341190; 341460;
  341570; 341530; 341330; 340980; 340490; 339850; 339070; 338160; 337120; 335950; 334670; 333310;
  331880; 330410; 328910; 327410; 325930; 324490; 323120; 321820; 320610; 319490; 318470; 317560;
  316760; 316070; 315500; 315060; 314760; 314580; 314540; 314620; 314820; 315130; 315540; 316050;
  316650; 317340; 318100; 318930; 319800; 320690; 321570; 322410; 323180; 323870; 324430; 324850;
  325100; 325160; 325050; 324810; 324480; 324070; 323640; 323210; 322820; 322500; 322280; 322200;
  322330; 322710; 323410; 324490; 326020; 328050; 330630; 333850; 337750; 342370; 347660; 353540;
  359960; 366820; 374050; 381580; 389350; 397260; 405250; 413260; 421230; 429130; 436920; 444570;
  452030; 459280; 466280; 472970; 479340; 485360; 491020; 496360; 501390; 506140; 510630; 514880;
  518900; 522720; 526370; 529850; 533180; 536360; 539390; 542270; 545020; 547630; 550110; 552460;
  554690; 556800; 558790; 560680; 562480; 564190; 565820; 567380; 568880; 570320; 571720; 573080;
  574410; 575710; 576970; 578200; 579400; 580580; 581730; 582850; 583950; 585030; 586080; 587120;
  588130; 589110; 590070; 591010; 591920; 592810; 593670; 594500; 595310; 596110; 596880; 597650;
  598420; 599180; 599950; 600720; 601500; 602310; 603120; 603950; 604790; 605630; 606490; 607350;
  608220; 609100; 609970; 610840; 611720; 612590; 613450; 614310; 615160; 616000; 616830; 617640;
  618430; 619210; 619970; 620710; 621440; 622140; 622820; 623480; 624120; 624740; 625330; 625900;
  626450; 626980; 627470; 627950; 628400; 628820; 629220; 629590; 629930; 630810; 631320; 631830;
  632330; 632840; 633340; 633850; 634350; 634860; 635360; 635870; 636370; 636870; 637380; 637880;
  638380; 638880; 639380; 639890; 640390; 640890; 641390; 641890; 642390; 642890; 643390; 643890;
  644390; 644890; 645380; 645880; 646380; 646880; 647370; 647870; 648370; 648860; 649360; 649850;
  650350; 650840; 651340; 651830; 652320; 652820; 653310; 653800; 654300; 654790; 655280; 655770;
  656260; 656750; 657240; 657730; 658220; 658710; 659200; 659690; 660180; 660670; 661150; 661640;
  662130; 662620; 663100; 663590; 664070; 664560; 665040; 665530; 666010; 666500; 666980; 667460;
  667950; 668430; 668910; 669390].

(** hpp:2739-2779 *)
Definition T_CES16 : list dec := table (-6) [
  34659; 34799; 34941; 35082; 35224; 35367; 35510; 35654; 35799; 35943; 36089; 36235; 36382; 36529;
  36677; 36825; 36974; 37124; 37274; 37424; 37670; 37778; 37895; 38020; 38153; 38294; 38442; 38597;
  38759; 38926; 39099; 39277; 39460; 39647; 39837; 40031; 40229; 40428; 40630; 40834; 41039; 41245;
  41454; 41668; 41890; 42121; 42363; 42619; 42890; 43180; 43489; 43819; 44169; 44536; 44917; 45310;
  45713; 46123; 46537; 46953; 47368; 47781; 48193; 48605; 49020; 49438; 49863; 50295; 50737; 51190;
  51656; 52136; 52631; 53138; 53657; 54187; 54727; 55275; 55832; 56395; 56964; 57538; 58118; 58702;
  59293; 59891; 60495; 61106; 61725; 62352; 62987; 63631; 64284; 64944; 65610; 66284; 66963; 67647;
  68336; 69029; 69725; 70424; 71124; 71825; 72526; 73226; 73923; 74616; 75306; 75990; 76667; 77337;
  78001; 78659; 79313; 79963; 80611; 81258; 81904; 82551; 83200; 83852; 84505; 85161; 85816; 86473;
  87128; 87783; 88436; 89086; 89734; 90377; 91016; 91648; 92271; 92885; 93488; 94078; 94654; 95214;
  95757; 96282; 96791; 97285; 97768; 98242; 98709; 99172; 99632; 100090; 100560; 101020; 101490;
  101970; 102450; 102930; 103410; 103900; 104380; 104870; 105350; 105840; 106320; 106810; 107290;
  107770; 108250; 108730; 109200; 109680; 110150; 110620; 111090; 111560; 112030; 112500; 112970;
  113440; 113910; 114380; 114850; 115320; 115800; 116290; 116790; 117300; 117840; 118400; 118990;
  119600; 120260; 120950; 121680; 122460; 123280; 124150; 125070; 126050; 127090; 128180; 129340;
  130570; 131860; 133230; 134680; 136220; 137830; 139550; 141350; 143260; 145270; 147390; 149610;
  151950; 154400; 156960; 159620; 162400; 165290; 168290; 171400; 174630; 177960; 181390; 184910;
  188520; 192210; 195970; 199800; 203700; 207640; 211640; 215690; 219780; 223920; 228100; 232330;
  236610; 240930; 245290; 249700; 254150; 258640; 263150; 267680; 272230; 276770; 281310; 285840;
  290350; 294830; 299270; 303670; 308050; 312380; 316690; 320970; 325220; 329440; 333630; 337800;
  341950; 346080; 350200; 354300; 358410; 362510; 366620; 370750; 374890; 379050; 383230; 387430;
  391640; 395840; 400030; 404190; 408320; 412400; 416430; 420390; 424280; 428090; 431840; 435530;
  439170; 442760; 446300; 449810; 453290; 456730; 460160; 463570; 466960; 470340; 473710; 477060;
  480410; 483750; 487090; 490420; 493760; 497090; 500410; 503730; 507030; 510310; 513570; 516810;
  520020; 523190; 526330; 529430; 532490; 535500; 538460; 541370; 544220; 547010; 549730; 552390;
  556110; 559100; 562080; 565060; 568040; 571010; 573970; 576930; 579890; 582830; 585780; 588710;
  591640; 594570; 597480; 600390; 603290; 606190; 609080; 611960; 614830; 617700; 620550; 623400;
  626240; 629070; 631890; 634710; 637510; 640300; 643090; 645870; 648630; 651390; 654130; 656870;
  659590; 662310; 665010; 667700; 670390; 673060; 675720; 678370; 681000; 683630; 686240; 688850;
  691440; 694010; 696580; 699140; 701680; 704210; 706720; 709230; 711720; 714200; 716660; 719120;
  721560; 723990; 726400; 728800; 731190; 733560; 735920; 738270; 740600; 742920; 745230; 747520;
  749800; 752070; 754320; 756560; 758780; 760990; 763190].

(** hpp:2780-2820 *)
Definition T_CES17 : list dec := table (-6) [
  30798; 31245; 31698; 32158; 32624; 33096; 33576; 34062; 34554; 35054; 35560; 36074; 36595; 37123;
  37658; 38201; 38751; 39308; 39874; 40447; 40310; 41225; 42094; 42917; 43696; 44432; 45126; 45779;
  46393; 46967; 47505; 48005; 48470; 48902; 49299; 49665; 50000; 50305; 50582; 50830; 51053; 51250;
  51426; 51584; 51729; 51864; 51993; 52120; 52250; 52385; 52531; 52690; 52862; 53048; 53247; 53458;
  53682; 53919; 54167; 54428; 54699; 54982; 55276; 55582; 55899; 56228; 56569; 56921; 57285; 57662;
  58050; 58451; 58863; 59286; 59719; 60161; 60612; 61070; 61536; 62008; 62485; 62967; 63453; 63941;
  64430; 64919; 65407; 65891; 66371; 66846; 67315; 67775; 68227; 68669; 69102; 69524; 69935; 70334;
  70721; 71094; 71454; 71799; 72131; 72451; 72758; 73055; 73342; 73620; 73891; 74154; 74411; 74662;
  74907; 75144; 75372; 75590; 75796; 75990; 76169; 76333; 76480; 76610; 76726; 76829; 76923; 77011;
  77096; 77181; 77269; 77363; 77466; 77580; 77707; 77847; 78000; 78168; 78350; 78548; 78762; 78992;
  79240; 79506; 79796; 80113; 80465; 80855; 81290; 81774; 82313; 82912; 83576; 84312; 85126; 86024;
  87015; 88106; 89303; 90615; 92047; 93608; 95305; 97142; 99116; 101220; 103450; 105800; 108270;
  110840; 113520; 116290; 119160; 122100; 125120; 128210; 131330; 134500; 137680; 140880; 144070;
  147250; 150400; 153510; 156570; 159580; 162530; 165410; 168220; 170950; 173590; 176140; 178590;
  180930; 183170; 185300; 187340; 189280; 191130; 192880; 194540; 196120; 197610; 199010; 200350;
  201610; 202810; 203960; 205060; 206120; 207150; 208150; 209140; 210110; 211070; 212000; 212920;
  213810; 214670; 215490; 216270; 217020; 217710; 218360; 218950; 219500; 219980; 220410; 220790;
  221100; 221350; 221530; 221660; 221710; 221710; 221660; 221580; 221460; 221320; 221180; 221030;
  220890; 220770; 220670; 220620; 220620; 220680; 220810; 221030; 221350; 221790; 222340; 223030;
  223870; 224860; 226010; 227330; 228810; 230480; 232320; 234350; 236580; 239000; 241630; 244480;
  247570; 250910; 254510; 258390; 262570; 267070; 271880; 277040; 282560; 288420; 294620; 301150;
  308000; 315160; 322620; 330370; 338410; 346720; 355300; 364090; 373060; 382170; 391380; 400630;
  409890; 419120; 428270; 437300; 446170; 454890; 463450; 471880; 480160; 488320; 496360; 504270;
  512080; 519790; 527400; 534900; 542280; 549540; 556660; 563620; 570430; 577060; 583510; 589770;
  595820; 601650; 607260; 612630; 617750; 622610; 627200; 631510; 635530; 639240; 647780; 652950;
  658080; 663180; 668230; 673250; 678230; 683170; 688070; 692920; 697740; 702510; 707240; 711920;
  716560; 721150; 725700; 730200; 734650; 739050; 743410; 747720; 751990; 756200; 760370; 764480;
  768550; 772570; 776530; 780450; 784320; 788140; 791910; 795630; 799300; 802920; 806490; 810010;
  813490; 816910; 820280; 823610; 826890; 830110; 833300; 836430; 839510; 842550; 845540; 848490;
  851390; 854240; 857040; 859810; 862520; 865200; 867820; 870410; 872950; 875450; 877910; 880320;
  882690; 885030; 887320; 889570; 891780; 893960; 896090; 898190; 900250; 902270; 904260; 906210;
  908120; 910000; 911840; 913650; 915430].

(** hpp:2821-2861 *)
Definition T_CES18 : list dec := table (-6) [
  64984; 65366; 65750; 66136; 66524; 66915; 67307; 67702; 68099; 68497; 68899; 69302; 69707; 70115;
  70525; 70937; 71351; 71767; 72186; 72607; 73100; 73417; 73816; 74285; 74812; 75384; 75989; 76616;
  77251; 77883; 78500; 79092; 79662; 80215; 80758; 81296; 81833; 82377; 82932; 83505; 84100; 84723;
  85375; 86058; 86773; 87521; 88304; 89121; 89976; 90868; 91800; 92771; 93777; 94813; 95875; 96957;
  98055; 99163; 100280; 101390; 102500; 103600; 104690; 105770; 106840; 107890; 108920; 109940;
  110950; 111930; 112900; 113850; 114770; 115690; 116580; 117470; 118350; 119220; 120080; 120940;
  121800; 122660; 123520; 124380; 125250; 126110; 126970; 127830; 128690; 129550; 130400; 131250;
  132100; 132950; 133810; 134660; 135520; 136380; 137250; 138120; 139000; 139890; 140790; 141700;
  142620; 143550; 144490; 145450; 146420; 147400; 148400; 149410; 150440; 151480; 152530; 153590;
  154660; 155740; 156820; 157910; 159000; 160090; 161180; 162250; 163300; 164330; 165320; 166270;
  167170; 168020; 168800; 169510; 170150; 170720; 171230; 171660; 172020; 172320; 172550; 172710;
  172800; 172830; 172800; 172720; 172600; 172460; 172290; 172110; 171930; 171760; 171600; 171470;
  171370; 171310; 171290; 171320; 171420; 171570; 171800; 172110; 172500; 172980; 173540; 174170;
  174850; 175590; 176360; 177160; 177970; 178790; 179600; 180400; 181170; 181910; 182620; 183290;
  183910; 184480; 184990; 185430; 185800; 186100; 186330; 186530; 186690; 186850; 187020; 187210;
  187440; 187730; 188100; 188560; 189130; 189840; 190690; 191700; 192900; 194300; 195920; 197780;
  199900; 202280; 204920; 207780; 210850; 214090; 217500; 221030; 224680; 228410; 232200; 236030;
  239890; 243740; 247590; 251400; 255170; 258870; 262480; 266000; 269400; 272670; 275810; 278820;
  281720; 284500; 287170; 289750; 292220; 294600; 296900; 299110; 301250; 303310; 305290; 307200;
  309030; 310800; 312500; 314130; 315700; 317210; 318650; 320050; 321410; 322720; 324000; 325250;
  326480; 327700; 328900; 330100; 331290; 332480; 333670; 334860; 336050; 337230; 338420; 339610;
  340800; 341990; 343190; 344380; 345560; 346740; 347900; 349050; 350190; 351310; 352400; 353470;
  354520; 355550; 356570; 357580; 358580; 359580; 360580; 361590; 362600; 363630; 364660; 365710;
  366770; 367830; 368900; 369970; 371050; 372120; 373200; 374280; 375350; 376420; 377480; 378530;
  379570; 380600; 381620; 382620; 383600; 384560; 385510; 386440; 387370; 388290; 389220; 390140;
  391080; 392030; 393000; 393990; 394980; 395960; 396910; 397830; 398680; 399460; 400150; 400740;
  401200; 401940; 402580; 403210; 403840; 404480; 405110; 405750; 406380; 407020; 407650; 408290;
  408930; 409560; 410200; 410840; 411470; 412110; 412750; 413390; 414030; 414670; 415310; 415950;
  416590; 417230; 417870; 418510; 419150; 419790; 420430; 421070; 421710; 422360; 423000; 423640;
  424290; 424930; 425570; 426220; 426860; 427500; 428150; 428790; 429440; 430080; 430730; 431380;
  432020; 432670; 433320; 433960; 434610; 435260; 435900; 436550; 437200; 437850; 438500; 439140;
  439790; 440440; 441090; 441740; 442390; 443040; 443690; 444340; 444990; 445640; 446290; 446940;
  447590; 448240; 448890; 449550; 450200; 450850; 451500; 452150].

(** hpp:2862-2902 *)
Definition T_CES19 : list dec := table (-6) [
  109270; 109790; 110320; 110840; 111370; 111900; 112430; 112970; 113500; 114040; 114580; 115130;
  115670; 116220; 116770; 117330; 117880; 118440; 119000; 119560; 120200; 120640; 121190; 121800;
  122470; 123160; 123840; 124480; 125050; 125540; 125900; 126120; 126210; 126190; 126080; 125890;
  125650; 125370; 125070; 124780; 124500; 124260; 124050; 123870; 123720; 123590; 123490; 123400;
  123320; 123260; 123200; 123150; 123090; 123050; 123010; 122980; 122960; 122950; 122950; 122970;
  123000; 123050; 123100; 123170; 123250; 123340; 123430; 123520; 123620; 123710; 123800; 123880;
  123960; 124040; 124110; 124170; 124240; 124300; 124370; 124430; 124500; 124570; 124640; 124710;
  124770; 124840; 124900; 124960; 125010; 125060; 125100; 125130; 125160; 125170; 125180; 125180;
  125180; 125170; 125150; 125130; 125100; 125070; 125040; 125010; 125000; 125010; 125050; 125120;
  125230; 125390; 125600; 125870; 126220; 126680; 127270; 128010; 128920; 130030; 131370; 132950;
  134800; 136930; 139340; 142010; 144920; 148050; 151380; 154900; 158590; 162430; 166400; 170490;
  174640; 178830; 183000; 187110; 191120; 194970; 198630; 202060; 205200; 208030; 210560; 212810;
  214830; 216620; 218230; 219670; 220980; 222180; 223300; 224370; 225430; 226540; 227730; 229050;
  230560; 232290; 234290; 236610; 239300; 242400; 245930; 249920; 254390; 259360; 264850; 270890;
  277500; 284690; 292500; 300920; 309900; 319340; 329160; 339280; 349620; 360080; 370590; 381050;
  391400; 401540; 411440; 421050; 430330; 439250; 447750; 455810; 463380; 470430; 476900; 482780;
  488090; 492860; 497150; 500970; 504380; 507410; 510100; 512480; 514600; 516490; 518160; 519650;
  520950; 522100; 523100; 523970; 524740; 525410; 526000; 526530; 527000; 527420; 527790; 528100;
  528370; 528590; 528770; 528900; 529000; 529060; 529090; 529090; 529070; 529020; 528960; 528880;
  528790; 528700; 528600; 528500; 528400; 528300; 528200; 528100; 527990; 527870; 527760; 527630;
  527500; 527360; 527220; 527070; 526910; 526760; 526600; 526440; 526290; 526140; 526000; 525860;
  525730; 525600; 525470; 525340; 525210; 525070; 524920; 524770; 524600; 524420; 524230; 524020;
  523820; 523610; 523400; 523190; 522980; 522790; 522600; 522430; 522260; 522110; 521960; 521810;
  521670; 521530; 521390; 521250; 521100; 520940; 520780; 520620; 520450; 520290; 520120; 519960;
  519800; 519640; 519500; 519360; 519240; 519110; 518990; 518870; 518750; 518620; 518490; 518350;
  518200; 518040; 517860; 517680; 517490; 517290; 517080; 516860; 516650; 516420; 516200; 515980;
  515750; 515530; 515320; 515120; 514940; 514770; 514620; 514500; 514400; 514240; 514110; 513970;
  513840; 513700; 513570; 513430; 513300; 513160; 513030; 512890; 512760; 512620; 512490; 512350;
  512220; 512080; 511950; 511810; 511680; 511540; 511410; 511270; 511140; 511000; 510870; 510730;
  510600; 510460; 510330; 510190; 510050; 509920; 509780; 509650; 509510; 509380; 509240; 509110;
  508970; 508840; 508700; 508570; 508430; 508300; 508160; 508030; 507890; 507760; 507620; 507490;
  507350; 507220; 507080; 506950; 506810; 506680; 506540; 506410; 506270; 506140; 506000; 505870;
  505730; 505600; 505460; 505330; 505190; 505060; 504920; 504790; 504650; 504520; 504380; 504250;
  504110; 503980; 503840; 503710].

(** hpp:2903-2943 *)
Definition T_CES20 : list dec := table (-6) [
  25086; 25460; 25839; 26223; 26613; 27009; 27411; 27818; 28231; 28650; 29075; 29506; 29944; 30387;
  30837; 31294; 31757; 32227; 32703; 33186; 31971; 33232; 34378; 35412; 36332; 37141; 37837; 38423;
  38898; 39262; 39517; 39663; 39700; 39629; 39450; 39164; 38771; 38271; 37667; 36956; 36142; 35226;
  34227; 33165; 32061; 30935; 29810; 28704; 27639; 26637; 25716; 24894; 24164; 23515; 22937; 22420;
  21951; 21521; 21119; 20734; 20354; 19974; 19598; 19235; 18897; 18590; 18326; 18112; 17959; 17876;
  17872; 17957; 18143; 18441; 18865; 19426; 20137; 21010; 22057; 23291; 24723; 26371; 28264; 30439;
  32930; 35774; 39004; 42656; 46765; 51367; 56496; 62177; 68393; 75115; 82313; 89961; 98030; 106490;
  115320; 124480; 133940; 143670; 153550; 163470; 173280; 182880; 192130; 200920; 209110; 216580;
  223200; 228890; 233680; 237620; 240770; 243200; 244970; 246140; 246760; 246910; 246640; 246000;
  245050; 243830; 242360; 240700; 238890; 236950; 234940; 232890; 230850; 228840; 226880; 224950;
  223060; 221220; 219400; 217620; 215880; 214160; 212480; 210820; 209200; 207610; 206060; 204550;
  203080; 201650; 200280; 198950; 197690; 196480; 195330; 194260; 193260; 192340; 191520; 190790;
  190170; 189650; 189250; 188970; 188810; 188780; 188890; 189130; 189520; 190040; 190720; 191540;
  192520; 193660; 194950; 196400; 198000; 199740; 201630; 203670; 205840; 208150; 210590; 213170;
  215880; 218700; 221640; 224700; 227860; 231120; 234480; 237940; 241470; 245090; 248810; 252630;
  256560; 260620; 264810; 269150; 273650; 278320; 283170; 288220; 293480; 298970; 304720; 310750;
  317080; 323730; 330730; 338080; 345830; 353970; 362520; 371450; 380770; 390450; 400500; 410900;
  421640; 432720; 444120; 455830; 467800; 479950; 492230; 504580; 516930; 529210; 541370; 553340;
  565060; 576470; 587540; 598260; 608590; 618520; 628010; 637060; 645630; 653710; 661270; 668300;
  674820; 680860; 686460; 691660; 696480; 700960; 705140; 709040; 712700; 716160; 719420; 722500;
  725420; 728180; 730810; 733310; 735700; 738000; 740210; 742340; 744420; 746440; 748410; 750350;
  752260; 754150; 756020; 757890; 759770; 761650; 763550; 765480; 767420; 769390; 771380; 773410;
  775480; 777580; 779720; 781910; 784140; 786390; 788680; 790980; 793290; 795620; 797940; 800260;
  802560; 804850; 807120; 809360; 811590; 813790; 815960; 818120; 820240; 822340; 824400; 826440;
  828440; 830410; 832340; 834230; 836080; 837880; 839630; 841330; 842970; 844560; 846090; 847560;
  848960; 850300; 851560; 852760; 853880; 854920; 855880; 858060; 859390; 860710; 862010; 863310;
  864600; 865870; 867140; 868390; 869640; 870880; 872100; 873320; 874520; 875720; 876910; 878080;
  879250; 880410; 881560; 882690; 883820; 884940; 886050; 887150; 888240; 889320; 890400; 891460;
  892520; 893560; 894600; 895630; 896640; 897650; 898660; 899650; 900630; 901610; 902570; 903530;
  904480; 905420; 906360; 907280; 908200; 909110; 910010; 910900; 911780; 912660; 913530; 914390;
  915240; 916090; 916930; 917760; 918580; 919390; 920200; 921000; 921790; 922580; 923360; 924130;
  924890; 925650; 926400; 927140; 927880; 928610; 929330; 930040; 930750; 931460; 932150; 932840;
  933520; 934200].

(** hpp:2944-2984 *)
Definition T_CES21 : list dec := table (-6) [
  123560; 124960; 126380; 127810; 129260; 130710; 132190; 133670; 135170; 136690; 138220; 139760;
  141320; 142890; 144480; 146080; 147690; 149320; 150970; 152630; 148740; 153090; 156940; 160320;
  163260; 165780; 167910; 169690; 171140; 172290; 173160; 173790; 174210; 174430; 174500; 174440;
  174270; 174030; 173750; 173450; 173160; 172910; 172690; 172500; 172340; 172200; 172080; 171970;
  171870; 171770; 171670; 171570; 171470; 171360; 171250; 171140; 171040; 170940; 170850; 170760;
  170680; 170610; 170550; 170510; 170480; 170470; 170470; 170490; 170530; 170590; 170680; 170790;
  170920; 171090; 171280; 171500; 171760; 172050; 172380; 172750; 173160; 173620; 174110; 174650;
  175230; 175860; 176530; 177230; 177990; 178780; 179620; 180490; 181400; 182350; 183320; 184300;
  185310; 186320; 187330; 188340; 189350; 190340; 191320; 192300; 193270; 194250; 195230; 196220;
  197220; 198240; 199270; 200340; 201430; 202560; 203750; 204990; 206300; 207690; 209150; 210720;
  212380; 214160; 216070; 218130; 220360; 222780; 225420; 228280; 231410; 234800; 238490; 242500;
  246820; 251460; 256440; 261740; 267380; 273370; 279690; 286370; 293400; 300790; 308510; 316560;
  324900; 333530; 342430; 351570; 360940; 370510; 380280; 390220; 400300; 410520; 420850; 431260;
  441740; 452270; 462830; 473390; 483940; 494450; 504910; 515300; 525590; 535770; 545820; 555720;
  565450; 574990; 584320; 593430; 602330; 611040; 619560; 627910; 636100; 644160; 652090; 659900;
  667630; 675260; 682800; 690240; 697570; 704760; 711830; 718750; 725510; 732100; 738520; 744750;
  750800; 756670; 762370; 767920; 773300; 778540; 783640; 788600; 793430; 798130; 802700; 807130;
  811410; 815530; 819470; 823240; 826810; 830180; 833340; 836280; 839030; 841600; 844010; 846280;
  848440; 850510; 852510; 854460; 856380; 858280; 860170; 862030; 863860; 865650; 867370; 869040;
  870630; 872140; 873550; 874870; 876100; 877240; 878310; 879320; 880280; 881190; 882070; 882930;
  883780; 884620; 885460; 886280; 887090; 887890; 888670; 889430; 890150; 890860; 891520; 892160;
  892760; 893340; 893890; 894420; 894930; 895430; 895920; 896400; 896890; 897370; 897850; 898330;
  898810; 899280; 899740; 900190; 900630; 901050; 901450; 901840; 902210; 902550; 902880; 903190;
  903480; 903750; 903990; 904220; 904430; 904620; 904790; 904950; 905090; 905210; 905330; 905440;
  905540; 905630; 905720; 905810; 905900; 905990; 906080; 906170; 906270; 906370; 906480; 906590;
  906720; 906850; 906990; 907140; 907290; 907450; 907620; 907780; 907960; 908130; 908300; 908480;
  908650; 908820; 908990; 909160; 909320; 909470; 909620; 909760; 909890; 910110; 910270; 910440;
  910600; 910760; 910920; 911080; 911250; 911410; 911570; 911730; 911890; 912050; 912210; 912370;
  912520; 912680; 912840; 913000; 913160; 913320; 913470; 913630; 913790; 913940; 914100; 914260;
  914410; 914570; 914720; 914880; 915030; 915190; 915340; 915500; 915650; 915810; 915960; 916110;
  916260; 916420; 916570; 916720; 916870; 917030; 917180; 917330; 917480; 917630; 917780; 917930;
  918080; 918230; 918380; 918530; 918680; 918830; 918970; 919120; 919270; 919420; 919570; 919710;
  919860; 920010; 920150; 920300; 920440; 920590; 920740; 920880; 921030; 921170; 921310; 921460;
  921600; 921750; 921890; 922030].

(** hpp:2985-3025 *)
Definition T_CES22 : list dec := table (-6) [
  123; 2255; 4368; 6464; 8546; 10615; 12673; 14723; 16767; 18807; 20844; 22881; 24921; 26965; 29015;
  31073; 33142; 35224; 37320; 39433; 41565; 43716; 45877; 48039; 50190; 52320; 54418; 56474; 58478;
  60419; 62286; 64071; 65769; 67381; 68903; 70335; 71674; 72919; 74068; 75120; 76073; 76928; 77695;
  78389; 79023; 79611; 80166; 80702; 81233; 81772; 82333; 82927; 83556; 84219; 84915; 85644; 86405;
  87197; 88020; 88873; 89755; 90665; 91602; 92565; 93551; 94558; 95586; 96632; 97695; 98773; 99864;
  100970; 102090; 103220; 104370; 105540; 106730; 107950; 109190; 110470; 111770; 113100; 114470;
  115870; 117300; 118770; 120270; 121800; 123370; 124980; 126620; 128300; 130000; 131740; 133500;
  135290; 137090; 138910; 140730; 142560; 144400; 146240; 148080; 149920; 151780; 153650; 155550;
  157460; 159400; 161370; 163370; 165410; 167490; 169610; 171770; 173970; 176220; 178510; 180860;
  183250; 185690; 188190; 190740; 193350; 196020; 198760; 201570; 204450; 207400; 210440; 213560;
  216760; 220050; 223420; 226870; 230390; 233990; 237660; 241390; 245200; 249060; 252990; 256970;
  261030; 265160; 269350; 273630; 277980; 282410; 286930; 291540; 296240; 301030; 305910; 310880;
  315940; 321090; 326330; 331660; 337070; 342580; 348170; 353850; 359600; 365420; 371310; 377240;
  383230; 389260; 395330; 401420; 407540; 413690; 419870; 426080; 432350; 438660; 445020; 451450;
  457940; 464500; 471130; 477820; 484560; 491310; 498080; 504830; 511560; 518240; 524860; 531410;
  537860; 544230; 550500; 556700; 562810; 568860; 574830; 580730; 586570; 592360; 598090; 603760;
  609360; 614890; 620340; 625710; 630990; 636160; 641240; 646200; 651050; 655780; 660400; 664900;
  669280; 673540; 677700; 681730; 685650; 689450; 693140; 696710; 700180; 703550; 706820; 710010;
  713110; 716120; 719070; 721940; 724750; 727490; 730160; 732770; 735310; 737780; 740180; 742510;
  744770; 746950; 749060; 751100; 753080; 755010; 756890; 758720; 760520; 762280; 764030; 765750;
  767460; 769150; 770820; 772460; 774070; 775640; 777150; 778620; 780030; 781370; 782650; 783860;
  785020; 786130; 787200; 788240; 789250; 790240; 791230; 792210; 793200; 794190; 795190; 796200;
  797230; 798270; 799320; 800400; 801500; 802620; 803760; 804930; 806090; 807260; 808420; 809560;
  810670; 811750; 812770; 813750; 814670; 815520; 816340; 817110; 817850; 818560; 819260; 819950;
  820640; 821330; 822030; 822750; 823480; 824210; 824950; 825680; 826420; 827160; 827890; 828620;
  829340; 830050; 830760; 831470; 832180; 832900; 833620; 834360; 835100; 835870; 836650; 837450;
  838240; 839020; 839790; 840530; 841240; 841900; 842510; 843050; 843520; 843930; 844290; 844590;
  844860; 845100; 845310; 845500; 845690; 845880; 846080; 846290; 846530; 846810; 847120; 847490;
  847910; 848400; 848960; 849600; 849240; 849540; 849830; 850130; 850430; 850720; 851020; 851310;
  851600; 851900; 852190; 852480; 852770; 853060; 853350; 853640; 853930; 854220; 854510; 854800;
  855090; 855380; 855660; 855950; 856240; 856520; 856810; 857090; 857370; 857660; 857940; 858220;
  858510; 858790; 859070; 859350; 859630; 859910; 860190; 860470; 860750; 861020; 861300; 861580;
  861860; 862130; 862410; 862680; 862960].

(** hpp:3026-3066 *)
Definition T_CES23 : list dec := table (-6) [
  378530; 383530; 388220; 392610; 396730; 400610; 404260; 407720; 411010; 414150; 417160; 420070;
  422880; 425610; 428250; 430820; 433310; 435750; 438130; 440460; 442740; 444990; 447200; 449380;
  451520; 453640; 455730; 457800; 459850; 461870; 463880; 465870; 467850; 469800; 471740; 473660;
  475560; 477440; 479300; 481130; 482940; 484730; 486490; 488240; 489980; 491710; 493440; 495170;
  496910; 498650; 500410; 502190; 503970; 505770; 507570; 509370; 511160; 512930; 514690; 516430;
  518140; 519820; 521470; 523090; 524700; 526300; 527890; 529480; 531060; 532660; 534270; 535900;
  537540; 539200; 540890; 542600; 544330; 546080; 547870; 549670; 551510; 553370; 555260; 557160;
  559080; 560990; 562910; 564810; 566700; 568570; 570410; 572220; 573990; 575740; 577460; 579150;
  580820; 582470; 584100; 585720; 587320; 588910; 590500; 592080; 593670; 595260; 596880; 598510;
  600160; 601850; 603570; 605330; 607130; 608970; 610860; 612780; 614750; 616750; 618800; 620900;
  623030; 625210; 627420; 629670; 631950; 634250; 636570; 638910; 641270; 643630; 645990; 648350;
  650720; 653100; 655490; 657890; 660320; 662780; 665270; 667790; 670360; 672970; 675640; 678370;
  681170; 684060; 687030; 690100; 693270; 696560; 699970; 703510; 707160; 710900; 714700; 718560;
  722440; 726330; 730210; 734050; 737840; 741550; 745180; 748720; 752150; 755480; 758690; 761770;
  764720; 767530; 770190; 772700; 775050; 777270; 779370; 781350; 783220; 785000; 786690; 788310;
  789860; 791360; 792810; 794210; 795570; 796890; 798180; 799450; 800680; 801900; 803100; 804290;
  805460; 806600; 807710; 808790; 809820; 810810; 811740; 812610; 813410; 814140; 814800; 815390;
  815920; 816400; 816810; 817180; 817500; 817770; 818010; 818210; 818380; 818520; 818650; 818760;
  818870; 818970; 819080; 819200; 819340; 819500; 819670; 819870; 820080; 820310; 820560; 820810;
  821080; 821350; 821630; 821920; 822210; 822500; 822800; 823110; 823410; 823720; 824040; 824350;
  824670; 824990; 825310; 825650; 826000; 826360; 826740; 827150; 827580; 828050; 828550; 829090;
  829660; 830260; 830880; 831520; 832180; 832840; 833500; 834160; 834810; 835450; 836080; 836700;
  837320; 837940; 838560; 839190; 839820; 840470; 841140; 841820; 842530; 843240; 843970; 844710;
  845450; 846200; 846950; 847700; 848440; 849180; 849910; 850640; 851370; 852090; 852820; 853540;
  854260; 854990; 855720; 856450; 857190; 857930; 858680; 859430; 860190; 860960; 861730; 862510;
  863290; 864080; 864880; 865670; 866460; 867230; 868000; 868740; 869460; 870160; 870820; 871450;
  872050; 872620; 873180; 873730; 874280; 874830; 875390; 875970; 876570; 877200; 877850; 878520;
  879180; 879840; 880480; 881100; 881690; 882220; 882710; 883140; 883510; 883840; 884140; 884410;
  884670; 884930; 885200; 885480; 885790; 886130; 886510; 886900; 887300; 887700; 888100; 888490;
  888850; 889170; 889460; 889700; 889900; 890060; 890190; 890300; 890390; 890470; 890550; 890640;
  890740; 890850; 890980; 891120; 891270; 891410; 891550; 891690; 891810; 891920; 892000; 892060;
  892100; 892120; 892130; 892120; 892100; 892080; 892050; 892020; 892000; 891980; 891970; 891960;
  891960; 891960; 891960; 891970; 891980; 891990; 892000; 892010; 892020; 892030; 892040; 892040;
  892040; 892040; 892030; 892020].

(** hpp:3067-3107 *)
Definition T_CES24 : list dec := table (-6) [
  200260; 202600; 204970; 207360; 209770; 212200; 214650; 217130; 219620; 222130; 224660; 227220;
  229790; 232380; 235000; 237630; 240290; 242960; 245660; 248370; 251500; 253630; 256270; 259300;
  262600; 266050; 269520; 272890; 276050; 278850; 281200; 282990; 284260; 285080; 285510; 285630;
  285500; 285180; 284750; 284260; 283800; 283410; 283090; 282840; 282650; 282490; 282370; 282270;
  282180; 282100; 282000; 281890; 281760; 281620; 281480; 281350; 281230; 281130; 281050; 281010;
  281000; 281040; 281120; 281240; 281400; 281610; 281850; 282130; 282450; 282810; 283200; 283630;
  284090; 284580; 285110; 285670; 286270; 286900; 287570; 288270; 289000; 289770; 290580; 291430;
  292340; 293300; 294320; 295400; 296560; 297790; 299100; 300500; 301980; 303550; 305210; 306950;
  308780; 310710; 312710; 314810; 317000; 319280; 321650; 324120; 326700; 329390; 332200; 335130;
  338180; 341370; 344700; 348170; 351780; 355530; 359410; 363430; 367570; 371840; 376240; 380760;
  385400; 390160; 395030; 400030; 405140; 410390; 415770; 421270; 426910; 432690; 438600; 444660;
  450860; 457210; 463710; 470370; 477200; 484190; 491350; 498690; 506200; 513890; 521760; 529780;
  537960; 546260; 554690; 563230; 571870; 580600; 589400; 598260; 607180; 616130; 625110; 634100;
  643090; 652070; 661020; 669940; 678800; 687600; 696320; 704930; 713420; 721760; 729940; 737930;
  745720; 753280; 760600; 767650; 774430; 780940; 787180; 793140; 798820; 804220; 809330; 814160;
  818700; 822950; 826920; 830620; 834070; 837270; 840240; 842980; 845520; 847850; 850000; 851970;
  853780; 855430; 856930; 858300; 859540; 860660; 861670; 862580; 863400; 864140; 864800; 865400;
  865920; 866370; 866770; 867100; 867390; 867620; 867800; 867940; 868040; 868100; 868130; 868120;
  868080; 868020; 867930; 867830; 867700; 867560; 867400; 867240; 867060; 866880; 866690; 866490;
  866290; 866100; 865900; 865710; 865510; 865320; 865130; 864940; 864740; 864540; 864330; 864120;
  863900; 863670; 863430; 863180; 862910; 862630; 862340; 862030; 861700; 861360; 861000; 860620;
  860220; 859820; 859400; 858980; 858570; 858160; 857760; 857370; 857000; 856650; 856320; 856010;
  855710; 855430; 855150; 854890; 854620; 854360; 854100; 853840; 853560; 853280; 852970; 852640;
  852270; 851870; 851430; 850940; 850400; 849800; 849160; 848480; 847780; 847080; 846380; 845700;
  845050; 844450; 843900; 843420; 843010; 842660; 842370; 842120; 841930; 841770; 841650; 841560;
  841500; 841460; 841430; 841410; 841380; 841340; 841290; 841200; 841080; 840920; 840700; 840430;
  840110; 839750; 839380; 838990; 838610; 838250; 837920; 837630; 837400; 837050; 836740; 836440;
  836130; 835820; 835520; 835210; 834900; 834590; 834280; 833970; 833660; 833350; 833040; 832730;
  832410; 832100; 831790; 831480; 831160; 830850; 830530; 830220; 829900; 829580; 829270; 828950;
  828630; 828310; 828000; 827680; 827360; 827040; 826720; 826400; 826070; 825750; 825430; 825110;
  824780; 824460; 824140; 823810; 823490; 823160; 822830; 822510; 822180; 821850; 821520; 821200;
  820870; 820540; 820210; 819880; 819550; 819210; 818880; 818550; 818220; 817880; 817550; 817220;
  816880; 816550; 816210; 815870; 815540; 815200; 814860; 814520; 814190; 813850; 813510; 813170;
  812830; 812490; 812140; 811800].

(** hpp:3108-3148 *)
Definition T_CES25 : list dec := table (-6) [
  102810; 100680; 98595; 96582; 94694; 92924; 91152; 89347; 87542; 85757; 84042; 82434; 80878;
  79330; 77787; 76213; 74576; 72926; 71304; 69711; 68141; 66611; 65182; 63954; 63010; 62404; 62137;
  62086; 62064; 61918; 61578; 61078; 60493; 59873; 59228; 58536; 57750; 56884; 56009; 55235; 54642;
  54270; 54119; 54210; 54513; 55016; 55679; 56420; 57135; 57791; 58324; 58714; 58950; 59003; 58809;
  58404; 57798; 57046; 56238; 55429; 54616; 53889; 53318; 52943; 52809; 52897; 53070; 53216; 53276;
  53201; 53036; 52882; 52749; 52584; 52381; 52101; 51730; 51343; 51033; 50820; 50747; 50788; 50871;
  50965; 51104; 51275; 51515; 51854; 52262; 52658; 52996; 53223; 53334; 53340; 53275; 53163; 53005;
  52776; 52489; 52176; 51878; 51655; 51578; 51681; 51963; 52396; 52925; 53494; 54048; 54577; 55098;
  55654; 56272; 56967; 57722; 58514; 59328; 60194; 61150; 62227; 63430; 64750; 66140; 67574; 69053;
  70617; 72327; 74253; 76470; 79084; 82176; 85793; 89978; 94738; 100040; 105890; 112310; 119300;
  126910; 135120; 143880; 153160; 162940; 173200; 183910; 195060; 206540; 218210; 229970; 241710;
  253320; 264740; 275930; 286820; 297350; 307500; 317280; 326670; 335710; 344400; 352710; 360630;
  368150; 375270; 382020; 388450; 394600; 400480; 406110; 411490; 416590; 421390; 425880; 430050;
  433920; 437530; 440870; 443980; 446870; 449550; 452060; 454410; 456680; 458890; 461060; 463150;
  465150; 467030; 468770; 470390; 471930; 473410; 474840; 476250; 477630; 479000; 480400; 481830;
  483330; 484880; 486440; 487930; 489330; 490630; 491790; 492820; 493750; 494570; 495240; 495800;
  496290; 496810; 497450; 498250; 499180; 500200; 501240; 502210; 503080; 503860; 504560; 505110;
  505540; 505860; 506090; 506260; 506410; 506610; 506890; 507270; 507790; 508400; 509050; 509660;
  510140; 510420; 510590; 510670; 510670; 510630; 510550; 510400; 510210; 510040; 509910; 509840;
  509820; 509800; 509750; 509670; 509530; 509390; 509270; 509190; 509200; 509350; 509700; 510240;
  510960; 511800; 512700; 513550; 514260; 514750; 514990; 514960; 514650; 514110; 513430; 512690;
  511940; 511320; 510910; 510740; 510760; 510940; 511160; 511320; 511340; 511250; 511070; 510850;
  510620; 510380; 510120; 509850; 509550; 509190; 508780; 508260; 507580; 506690; 505620; 504390;
  503150; 502010; 501050; 500290; 499770; 499470; 499370; 499490; 499820; 500300; 500830; 501300;
  501700; 502100; 502610; 503360; 504440; 505820; 507380; 508940; 510470; 513900; 516520; 518210;
  518210; 518210; 518210; 521570; 523020; 524460; 525900; 527350; 528790; 530230; 531670; 533110;
  534550; 535990; 537430; 538870; 540310; 541750; 543190; 544620; 546060; 547490; 548930; 550360;
  551790; 553220; 554650; 556080; 557510; 558940; 560370; 561790; 563220; 564640; 566060; 567480;
  568900; 570320; 571740; 573160; 574570; 575990; 577400; 578810; 580220; 581630; 583040; 584450;
  585850; 587260; 588660; 590060; 591460; 592860; 594260; 595650; 597040; 598440; 599830; 601220;
  602600; 603990; 605370; 606750; 608130; 609510; 610890; 612270; 613640; 615010; 616380; 617750;
  619110; 620480; 621840; 623200; 624560; 625920; 627270; 628620; 629970; 631320].

(** hpp:3149-3189 *)
Definition T_CES26 : list dec := table (-6) [
  181510; 180860; 180220; 179570; 178930; 178290; 177650; 177010; 176380; 175750; 175110; 174480;
  173860; 173230; 172610; 171980; 171360; 170740; 170130; 169510; 168800; 168340; 167770; 167110;
  166370; 165580; 164770; 163940; 163120; 162330; 161600; 160940; 160350; 159830; 159380; 159000;
  158690; 158450; 158270; 158150; 158100; 158110; 158180; 158320; 158530; 158810; 159150; 159580;
  160070; 160650; 161300; 162030; 162840; 163730; 164690; 165710; 166790; 167940; 169140; 170400;
  171700; 173050; 174450; 175900; 177400; 178950; 180560; 182230; 183960; 185750; 187600; 189520;
  191500; 193540; 195630; 197770; 199950; 202170; 204420; 206700; 209000; 211320; 213680; 216090;
  218560; 221120; 223760; 226520; 229400; 232420; 235600; 238940; 242440; 246060; 249790; 253620;
  257510; 261460; 265440; 269420; 273400; 277350; 281300; 285260; 289250; 293290; 297400; 301610;
  305930; 310390; 315000; 319780; 324730; 329830; 335090; 340480; 346000; 351640; 357390; 363250;
  369200; 375240; 381350; 387550; 393820; 400170; 406580; 413070; 419620; 426230; 432900; 439630;
  446420; 453270; 460190; 467170; 474230; 481360; 488560; 495840; 503200; 510640; 518150; 525700;
  533280; 540880; 548460; 556030; 563550; 571010; 578400; 585690; 592900; 600010; 607040; 614000;
  620870; 627680; 634420; 641090; 647700; 654250; 660750; 667170; 673520; 679790; 685970; 692050;
  698040; 703930; 709700; 715360; 720890; 726310; 731600; 736770; 741820; 746730; 751520; 756180;
  760700; 765090; 769350; 773490; 777510; 781410; 785210; 788900; 792490; 795990; 799400; 802730;
  805970; 809130; 812220; 815230; 818160; 821020; 823820; 826540; 829200; 831790; 834320; 836790;
  839200; 841550; 843830; 846060; 848230; 850340; 852400; 854400; 856350; 858240; 860070; 861850;
  863580; 865240; 866850; 868400; 869900; 871340; 872720; 874060; 875350; 876590; 877800; 878970;
  880110; 881220; 882300; 883360; 884400; 885410; 886400; 887350; 888280; 889160; 890020; 890830;
  891600; 892330; 893020; 893670; 894290; 894870; 895430; 895950; 896460; 896940; 897400; 897850;
  898280; 898690; 899080; 899460; 899830; 900170; 900500; 900810; 901100; 901370; 901630; 901880;
  902110; 902320; 902530; 902730; 902930; 903110; 903300; 903480; 903660; 903840; 904020; 904190;
  904360; 904530; 904690; 904850; 905000; 905150; 905290; 905430; 905570; 905700; 905830; 905950;
  906070; 906190; 906300; 906410; 906510; 906610; 906710; 906800; 906890; 906970; 907050; 907130;
  907200; 907270; 907330; 907400; 907460; 907520; 907590; 907660; 907730; 907810; 907900; 907990;
  908090; 908200; 908300; 908400; 908500; 908590; 908670; 908740; 908800; 908880; 908960; 909030;
  909110; 909180; 909260; 909330; 909410; 909480; 909560; 909630; 909700; 909780; 909850; 909930;
  910000; 910070; 910150; 910220; 910300; 910370; 910440; 910520; 910590; 910660; 910740; 910810;
  910890; 910960; 911030; 911100; 911180; 911250; 911320; 911400; 911470; 911540; 911620; 911690;
  911760; 911830; 911910; 911980; 912050; 912120; 912200; 912270; 912340; 912410; 912490; 912560;
  912630; 912700; 912770; 912850; 912920; 912990; 913060; 913130; 913200; 913280; 913350; 913420;
  913490; 913560; 913630; 913700; 913780; 913850; 913920; 913990; 914060; 914130; 914200; 914270;
  914340; 914410; 914490; 914560].

(** hpp:3190-3230 *)
Definition T_CES27 : list dec := table (-6) [
  64624; 64350; 64299; 64431; 64685; 64995; 65259; 65449; 65645; 65884; 66204; 66605; 66987; 67268;
  67461; 67575; 67627; 67711; 67868; 68095; 68390; 68748; 69193; 69808; 70678; 71852; 73348; 75113;
  77052; 79087; 81167; 83330; 85659; 88183; 90913; 93890; 97141; 100710; 104720; 109250; 114340;
  119930; 125940; 132240; 138770; 145480; 152330; 159270; 166230; 173120; 179800; 186180; 192190;
  197760; 202880; 207580; 211880; 215830; 219460; 222800; 225870; 228780; 231650; 234550; 237560;
  240720; 243910; 246980; 249870; 252500; 254860; 256940; 258770; 260320; 261630; 262720; 263640;
  264530; 265510; 266650; 268050; 269740; 271680; 273790; 275990; 278120; 280150; 282060; 283830;
  285420; 286810; 287910; 288780; 289460; 290000; 290480; 290960; 291340; 291610; 291810; 292000;
  292270; 292700; 293320; 294150; 295160; 296330; 297690; 299240; 300970; 302880; 304970; 307230;
  309620; 312110; 314680; 317330; 320070; 322920; 325920; 329070; 332290; 335510; 338670; 341730;
  344630; 347360; 349910; 352310; 354620; 356910; 359250; 361700; 364270; 366960; 369740; 372600;
  375510; 378460; 381380; 384220; 386960; 389590; 392100; 394520; 396860; 399050; 401080; 402910;
  404520; 405920; 407160; 408220; 409130; 409870; 410450; 410870; 411210; 411520; 411890; 412370;
  413000; 413740; 414590; 415490; 416460; 417480; 418580; 419740; 420930; 422070; 423130; 424090;
  424960; 425780; 426570; 427330; 428020; 428600; 429060; 429410; 429690; 429960; 430260; 430590;
  430900; 431180; 431400; 431560; 431690; 431860; 432110; 432470; 432940; 433510; 434170; 434880;
  435620; 436400; 437180; 437990; 438780; 439540; 440240; 440850; 441340; 441730; 442050; 442320;
  442540; 442760; 442960; 443180; 443420; 443730; 444100; 444500; 444880; 445220; 445500; 445740;
  445970; 446210; 446410; 446550; 446560; 446430; 446240; 446090; 446040; 446170; 446470; 446850;
  447230; 447620; 447940; 448210; 448480; 448750; 448950; 449090; 449150; 449150; 449110; 449100;
  449190; 449450; 449830; 450330; 450910; 451550; 452180; 452800; 453400; 453990; 454560; 455110;
  455620; 456100; 456510; 456810; 456940; 456870; 456580; 456040; 455280; 454350; 453320; 452220;
  451110; 450030; 449030; 448160; 447470; 446970; 446660; 446510; 446400; 446280; 446080; 445790;
  445450; 445120; 444800; 444570; 444450; 444400; 444370; 444400; 444400; 444300; 444100; 443800;
  443420; 443040; 442720; 442450; 442270; 442200; 442250; 442420; 442860; 443590; 444580; 445750;
  447040; 448340; 449620; 450890; 452190; 453580; 455040; 456520; 457880; 459090; 461210; 462480;
  463570; 463570; 463570; 463570; 467160; 468380; 469600; 470820; 472050; 473270; 474490; 475720;
  476940; 478160; 479390; 480610; 481840; 483060; 484290; 485510; 486740; 487960; 489190; 490420;
  491640; 492870; 494090; 495320; 496550; 497770; 499000; 500230; 501450; 502680; 503910; 505130;
  506360; 507580; 508810; 510040; 511260; 512490; 513710; 514940; 516160; 517390; 518610; 519840;
  521060; 522290; 523510; 524730; 525960; 527180; 528400; 529630; 530850; 532070; 533290; 534510;
  535730; 536950; 538170; 539390; 540610; 541830; 543040; 544260; 545480; 546690; 547910; 549120;
  550340; 551550; 552770; 553980; 555190; 556400; 557610; 558820; 560030; 561240; 562450].

(** hpp:3231-3271 *)
Definition T_CES28 : list dec := table (-6) [
  45800; 43900; 47500; 45014; 44729; 44886; 44414; 44271; 44186; 43786; 43943; 43800; 43157; 43100;
  43271; 43171; 43429; 43629; 43800; 44329; 44671; 44686; 45329; 45571; 45714; 46500; 47071; 47200;
  47971; 48043; 47929; 48114; 47771; 47300; 47486; 46986; 46786; 47143; 46686; 46114; 46214; 45714;
  45357; 45014; 44086; 44000; 44443; 44086; 44100; 44429; 44557; 45171; 45486; 45314; 45971; 46529;
  46443; 46771; 46714; 46686; 47114; 47114; 46871; 47500; 47743; 47943; 48671; 49000; 48843; 48814;
  48014; 47271; 47129; 46300; 45586; 45371; 45000; 45000; 45657; 45514; 45557; 45914; 46000; 45986;
  46200; 45743; 46000; 46429; 46343; 46514; 47043; 47257; 48129; 48586; 48414; 48886; 49400; 49586;
  50071; 50114; 49986; 50843; 51114; 50786; 50943; 51129; 51171; 51757; 51286; 51129; 51843; 51786;
  51500; 51971; 52000; 52657; 53614; 54100; 55286; 56814; 57800; 59114; 60529; 61714; 63843; 65829;
  67700; 70186; 73129; 75829; 79229; 82057; 84914; 88086; 91014; 93157; 96086; 98414; 100470;
  102660; 104430; 106000; 108240; 109560; 110690; 112370; 113840; 115030; 116310; 116760; 117170;
  118160; 118200; 118030; 118170; 117990; 118300; 118770; 118130; 118110; 118430; 118490; 118770;
  118840; 118260; 118690; 119090; 118830; 118940; 119030; 118770; 119210; 118990; 118390; 118260;
  117400; 115770; 114610; 113730; 114290; 115030; 115840; 116540; 117970; 119310; 120310; 120240;
  119960; 119700; 120340; 120270; 120290; 120730; 120700; 120640; 120870; 120310; 120100; 120170;
  119910; 120090; 120630; 120630; 121160; 121990; 122140; 122340; 122390; 122130; 122360; 122370;
  121810; 121810; 121830; 121330; 121160; 120610; 119890; 120090; 120000; 119510; 119600; 119130;
  118790; 119190; 118960; 118410; 118490; 118190; 118260; 118640; 118440; 118190; 118390; 118200;
  118260; 118560; 118230; 117990; 118130; 118130; 118290; 118630; 118410; 118790; 119370; 119370;
  119340; 119340; 118900; 118810; 118490; 117590; 117230; 116910; 116340; 116460; 116360; 115810;
  116090; 116210; 116060; 116310; 116190; 115890; 116370; 116560; 116560; 117010; 116910; 116560;
  116840; 116540; 116100; 116140; 115710; 115490; 115810; 115640; 115410; 115370; 114800; 114500;
  114310; 113330; 112670; 112860; 112970; 113590; 114100; 114200; 115100; 116030; 116060; 116190;
  116240; 116170; 116610; 116630; 116160; 116360; 116430; 116010; 115710; 114590; 113200; 113040;
  113490; 113570; 114140; 114560; 115740; 117510; 118090; 117690; 117810; 117290; 117230; 117140;
  116470; 116270; 116270; 115630; 115340; 115060; 114430; 114540; 114760; 114630; 114990; 115590;
  115860; 116740; 117010; 116800; 116970; 117060; 116870; 117230; 117160; 117110; 117640; 117800;
  117970; 118560; 118710; 118890; 119310; 119260; 119410; 119790; 119470; 119240; 119390; 119100;
  118840; 118730; 118240; 118310; 118440; 117800; 117660; 118030; 117940; 118190; 118330; 117990;
  118440; 118940; 118660; 118800; 118910; 118800; 119210; 119230; 119060; 119660; 119930; 119930;
  120330; 120300; 120260; 120640; 120500; 120530; 121060; 121010; 121070; 121400; 121010; 120990;
  121190; 120810; 120730; 121140; 121200; 121310; 121440; 121140; 121090].

(** hpp:3272-3312 *)
Definition T_CES29 : list dec := table (-6) [
  39813; 40155; 40499; 40847; 41197; 41550; 41907; 42266; 42628; 42993; 43360; 43731; 44105; 44482;
  44862; 45246; 45632; 46021; 46414; 46810; 47981; 48044; 48164; 48341; 48575; 48865; 49211; 49612;
  50068; 50580; 51145; 51765; 52438; 53165; 53945; 54778; 55663; 56600; 57589; 58629; 59720; 60864;
  62066; 63336; 64683; 66113; 67637; 69262; 70996; 72849; 74829; 76943; 79197; 81593; 84136; 86830;
  89679; 92686; 95856; 99192; 102700; 106380; 110230; 114260; 118450; 122810; 127340; 132040;
  136900; 141920; 147110; 152450; 157940; 163580; 169340; 175230; 181220; 187320; 193510; 199770;
  206110; 212510; 218950; 225430; 231920; 238420; 244900; 251360; 257770; 264130; 270430; 276640;
  282770; 288810; 294780; 300660; 306470; 312190; 317850; 323420; 328920; 334350; 339700; 344980;
  350190; 355330; 360400; 365390; 370320; 375180; 379970; 384690; 389370; 394010; 398640; 403280;
  407950; 412660; 417430; 422280; 427230; 432300; 437480; 442780; 448180; 453690; 459310; 465030;
  470850; 476760; 482770; 488860; 495030; 501250; 507510; 513780; 520050; 526300; 532510; 538660;
  544730; 550710; 556600; 562390; 568080; 573670; 579150; 584540; 589820; 594990; 600060; 605020;
  609870; 614590; 619190; 623650; 627960; 632130; 636140; 639980; 643650; 647150; 650480; 653650;
  656670; 659560; 662310; 664950; 667470; 669900; 672240; 674500; 676680; 678790; 680830; 682800;
  684720; 686580; 688380; 690130; 691840; 693500; 695120; 696700; 698240; 699750; 701210; 702640;
  704040; 705410; 706740; 708050; 709330; 710590; 711830; 713050; 714270; 715470; 716680; 717890;
  719100; 720310; 721540; 722760; 723990; 725210; 726420; 727630; 728820; 729990; 731140; 732270;
  733380; 734480; 735560; 736630; 737700; 738760; 739820; 740890; 741960; 743050; 744140; 745250;
  746370; 747510; 748670; 749850; 751040; 752260; 753500; 754760; 756050; 757350; 758670; 759990;
  761330; 762670; 764010; 765340; 766670; 767990; 769290; 770580; 771840; 773080; 774300; 775480;
  776630; 777750; 778820; 779840; 780830; 781760; 782660; 783510; 784310; 785070; 785790; 786460;
  787090; 787670; 788210; 788710; 789180; 789620; 790030; 790420; 790790; 791140; 791480; 791800;
  792130; 792470; 792830; 793210; 793640; 794120; 794660; 795270; 795970; 796750; 797610; 798540;
  799540; 800600; 801700; 802840; 804000; 805190; 806380; 807580; 808770; 809970; 811170; 812360;
  813560; 814750; 815950; 817140; 818320; 819510; 820690; 821860; 823030; 824190; 825330; 826460;
  827580; 828680; 829760; 830820; 831860; 832870; 833860; 834820; 835750; 836650; 837520; 838350;
  839150; 840450; 841400; 842350; 843290; 844230; 845160; 846090; 847010; 847930; 848850; 849760;
  850660; 851570; 852460; 853350; 854240; 855130; 856000; 856880; 857750; 858610; 859480; 860330;
  861180; 862030; 862880; 863720; 864550; 865380; 866210; 867030; 867850; 868660; 869470; 870280;
  871080; 871870; 872670; 873450; 874240; 875020; 875790; 876560; 877330; 878100; 878850; 879610;
  880360; 881110; 881850; 882590; 883330; 884060; 884780; 885510; 886230; 886940; 887650; 888360;
  889060; 889760; 890460; 891150; 891840; 892520; 893200; 893880; 894550; 895220; 895890; 896550;
  897200; 897860; 898510; 899160; 899800; 900440; 901070; 901710].

(** hpp:3313-3353 *)
Definition T_CES30 : list dec := table (-6) [
  30430; 30767; 31096; 31410; 31715; 31976; 32081; 32014; 31841; 31608; 31346; 31072; 30760; 30398;
  29997; 29564; 29106; 28686; 28354; 28124; 27991; 27991; 28144; 28445; 28871; 29427; 30051; 30652;
  31146; 31473; 31587; 31529; 31337; 31059; 30771; 30541; 30379; 30318; 30356; 30475; 30682; 31018;
  31522; 32335; 33535; 35104; 36995; 39153; 41434; 43778; 46178; 48632; 51116; 53631; 56110; 58577;
  61110; 63807; 66759; 70079; 73778; 77809; 82134; 86771; 91747; 97106; 102870; 109000; 115380;
  121890; 128430; 134930; 141400; 147860; 154310; 160710; 166990; 173060; 178820; 184250; 189450;
  194430; 199240; 203960; 208600; 213010; 217130; 220950; 224410; 227490; 230250; 232660; 234700;
  236360; 237650; 238600; 239400; 240180; 241030; 242010; 243130; 244340; 245590; 246900; 248270;
  249700; 251170; 252690; 254190; 255680; 257150; 258630; 260080; 261530; 262940; 264320; 265650;
  266930; 268150; 269230; 270110; 270740; 271130; 271350; 271460; 271550; 271670; 271790; 271890;
  271950; 272000; 272080; 272270; 272580; 273010; 273530; 274090; 274640; 275200; 275750; 276300;
  276830; 277330; 277710; 278000; 278190; 278310; 278410; 278500; 278570; 278620; 278650; 278660;
  278680; 278760; 278890; 279040; 279190; 279310; 279410; 279550; 279770; 280110; 280580; 281130;
  281730; 282360; 283020; 283720; 284470; 285240; 285980; 286670; 287270; 287810; 288330; 288880;
  289490; 290180; 290950; 291770; 292640; 293550; 294530; 295570; 296640; 297720; 298780; 299770;
  300700; 301540; 302320; 303050; 303740; 304400; 305070; 305750; 306440; 307150; 307920; 308710;
  309540; 310430; 311370; 312350; 313400; 314470; 315580; 316720; 317880; 319030; 320240; 321470;
  322700; 323910; 325090; 326180; 327180; 328090; 328940; 329740; 330540; 331320; 332120; 332960;
  333880; 334860; 335900; 336970; 338000; 338940; 339740; 340430; 341040; 341630; 342200; 342770;
  343320; 343800; 344180; 344510; 344840; 345210; 345630; 346120; 346610; 347020; 347290; 347480;
  347630; 347790; 348080; 348500; 349030; 349680; 350400; 351160; 351980; 352860; 353670; 354380;
  354930; 355200; 355220; 355090; 354850; 354550; 354250; 353950; 353640; 353380; 353190; 353150;
  353310; 353630; 354030; 354480; 354880; 355150; 355370; 355610; 355920; 356420; 357060; 357790;
  358520; 359170; 359580; 359790; 359840; 359710; 359440; 359100; 358650; 358070; 357390; 356640;
  355890; 355250; 354770; 354490; 354370; 354270; 354110; 353910; 353730; 353660; 353830; 354220;
  354760; 355400; 356090; 356820; 357700; 358790; 360750; 361580; 362290; 363410; 365140; 365140;
  365920; 366830; 367750; 368670; 369590; 370510; 371430; 372350; 373270; 374190; 375120; 376040;
  376970; 377900; 378820; 379750; 380680; 381610; 382540; 383480; 384410; 385340; 386280; 387210;
  388150; 389090; 390030; 390960; 391900; 392840; 393790; 394730; 395670; 396610; 397560; 398500;
  399450; 400400; 401340; 402290; 403240; 404190; 405140; 406090; 407040; 408000; 408950; 409900;
  410860; 411810; 412770; 413720; 414680; 415640; 416600; 417560; 418520; 419480; 420440; 421400;
  422360; 423320; 424290; 425250; 426220; 427180; 428150; 429110; 430080; 431050; 432010; 432980;
  433950; 434920; 435890; 436860; 437830; 438800; 439770].

(** hpp:3354-3394 *)
Definition T_CES31 : list dec := table (-6) [
  44010; 43824; 43705; 43651; 43661; 43734; 43868; 44062; 44314; 44624; 44990; 45410; 45884; 46409;
  46984; 47609; 48281; 49000; 49763; 50571; 51420; 52310; 53239; 54205; 55205; 56238; 57302; 58394;
  59512; 60655; 61820; 63007; 64220; 65467; 66754; 68088; 69475; 70922; 72436; 74023; 75690; 77442;
  79281; 81207; 83219; 85318; 87504; 89777; 92138; 94585; 97120; 99742; 102450; 105240; 108120;
  111080; 114130; 117250; 120460; 123740; 127100; 130540; 134060; 137660; 141350; 145130; 149000;
  152980; 157050; 161220; 165510; 169900; 174410; 179010; 183710; 188500; 193370; 198330; 203360;
  208470; 213640; 218880; 224190; 229610; 235140; 240810; 246640; 252640; 258840; 265250; 271890;
  278780; 285880; 293160; 300590; 308130; 315740; 323390; 331040; 338660; 346210; 353670; 361040;
  368370; 375680; 382990; 390330; 397730; 405210; 412810; 420550; 428450; 436470; 444590; 452770;
  460970; 469160; 477290; 485330; 493250; 501010; 508580; 515950; 523140; 530160; 537020; 543710;
  550260; 556660; 562930; 569080; 575110; 581010; 586770; 592390; 597860; 603170; 608310; 613260;
  618030; 622600; 626970; 631140; 635140; 638970; 642640; 646180; 649590; 652890; 656090; 659210;
  662250; 665220; 668130; 670960; 673730; 676420; 679060; 681620; 684130; 686570; 688950; 691270;
  693530; 695740; 697900; 700010; 702080; 704110; 706090; 708040; 709960; 711840; 713700; 715530;
  717340; 719130; 720900; 722660; 724410; 726150; 727890; 729610; 731320; 733010; 734670; 736300;
  737900; 739450; 740960; 742410; 743810; 745150; 746460; 747720; 748950; 750150; 751340; 752510;
  753680; 754840; 756010; 757180; 758360; 759530; 760700; 761870; 763040; 764190; 765340; 766480;
  767600; 768710; 769800; 770860; 771900; 772910; 773880; 774810; 775700; 776550; 777350; 778110;
  778820; 779510; 780170; 780810; 781430; 782040; 782650; 783260; 783870; 784500; 785120; 785760;
  786410; 787060; 787720; 788400; 789080; 789780; 790490; 791200; 791930; 792650; 793380; 794110;
  794830; 795540; 796250; 796940; 797620; 798270; 798910; 799530; 800120; 800690; 801220; 801730;
  802200; 802640; 803040; 803420; 803770; 804110; 804450; 804790; 805150; 805530; 805950; 806400;
  806900; 807440; 808000; 808580; 809160; 809730; 810280; 810800; 811280; 811700; 812060; 812360;
  812620; 812840; 813020; 813200; 813360; 813520; 813690; 813880; 814100; 814340; 814620; 814910;
  815240; 815590; 815960; 816360; 816780; 817220; 817680; 818160; 818650; 819160; 819660; 820170;
  820680; 821180; 821670; 822150; 822610; 823050; 823480; 823890; 824290; 824680; 825050; 825410;
  825770; 826110; 826450; 826770; 827090; 827400; 827690; 827980; 828250; 828510; 828760; 828990;
  829210; 829410; 829600; 829770; 829930; 830070; 830200; 830310; 830400; 830480; 830540; 830580;
  830610; 830610; 830600; 830570; 830520; 830450; 830370; 830260; 830550; 830560; 830580; 830590;
  830600; 830620; 830630; 830650; 830660; 830670; 830690; 830700; 830720; 830730; 830740; 830760;
  830770; 830790; 830800; 830810; 830830; 830840; 830850; 830870; 830880; 830900; 830910; 830920;
  830940; 830950; 830970; 830980; 830990; 831010; 831020; 831030; 831050; 831060; 831080; 831090;
  831100; 831120; 831130; 831150; 831160; 831170; 831190; 831200; 831210].

(** hpp:3395-3435 *)
Definition T_CES32 : list dec := table (-6) [
  46277; 46104; 45931; 45759; 45587; 45416; 45246; 45077; 44908; 44739; 44571; 44404; 44237; 44071;
  43906; 43741; 43577; 43413; 43250; 43088; 42900; 42779; 42628; 42453; 42261; 42058; 41851; 41645;
  41447; 41263; 41100; 40963; 40852; 40770; 40715; 40689; 40692; 40724; 40786; 40878; 41000; 41153;
  41338; 41555; 41804; 42086; 42400; 42749; 43131; 43548; 44000; 44487; 45010; 45568; 46163; 46793;
  47461; 48165; 48906; 49684; 50500; 51354; 52249; 53189; 54177; 55216; 56310; 57461; 58675; 59953;
  61300; 62718; 64209; 65774; 67414; 69131; 70925; 72798; 74751; 76784; 78900; 81099; 83384; 85756;
  88219; 90773; 93421; 96166; 99009; 101950; 105000; 108150; 111410; 114770; 118230; 121800; 125480;
  129250; 133130; 137110; 141200; 145390; 149670; 154050; 158520; 163070; 167700; 172400; 177170;
  182000; 186900; 191850; 196860; 201910; 207020; 212180; 217390; 222650; 227950; 233300; 238700;
  244140; 249630; 255160; 260740; 266360; 272030; 277750; 283520; 289340; 295200; 301110; 307070;
  313070; 319110; 325170; 331260; 337380; 343510; 349650; 355800; 361950; 368100; 374230; 380350;
  386440; 392490; 398500; 404460; 410360; 416200; 421960; 427640; 433220; 438680; 444020; 449210;
  454250; 459120; 463810; 468300; 472580; 476650; 480510; 484140; 487560; 490760; 493730; 496480;
  499010; 501300; 503360; 505200; 506820; 508220; 509410; 510400; 511180; 511780; 512180; 512400;
  512440; 512320; 512060; 511650; 511130; 510500; 509770; 508970; 508110; 507200; 506250; 505290;
  504300; 503320; 502350; 501390; 500470; 499590; 498760; 498000; 497310; 496680; 496110; 495600;
  495120; 494680; 494270; 493870; 493480; 493100; 492710; 492300; 491880; 491420; 490930; 490380;
  489790; 489130; 488400; 487600; 486710; 485750; 484710; 483620; 482480; 481290; 480070; 478830;
  477570; 476300; 475040; 473790; 472570; 471410; 470300; 469280; 468350; 467540; 466850; 466300;
  465910; 465690; 465660; 465840; 466230; 466860; 467730; 468870; 470290; 472000; 474020; 476340;
  478980; 481930; 485180; 488750; 492620; 496800; 501300; 506100; 511210; 516620; 522310; 528260;
  534470; 540920; 547590; 554470; 561540; 568800; 576220; 583780; 591450; 599200; 606990; 614810;
  622620; 630390; 638090; 645700; 653180; 660540; 667750; 674820; 681730; 688490; 695080; 701500;
  707740; 713800; 719670; 725360; 730890; 736270; 741510; 746640; 751650; 756580; 761420; 766200;
  770930; 775620; 780280; 784920; 789560; 794210; 798880; 803570; 808310; 813100; 817940; 822780;
  827530; 832140; 836520; 840610; 844340; 847620; 850400; 852600; 855940; 858780; 861560; 864300;
  866990; 869640; 872240; 874800; 877320; 879790; 882220; 884600; 886950; 889250; 891510; 893730;
  895910; 898050; 900150; 902210; 904230; 906220; 908170; 910080; 911960; 913800; 915610; 917380;
  919120; 920830; 922500; 924140; 925750; 927320; 928870; 930380; 931870; 933320; 934750; 936150;
  937520; 938860; 940180; 941470; 942730; 943970; 945180; 946370; 947530; 948670; 949790; 950880;
  951950; 953000; 954030; 955030; 956010; 956980; 957920; 958850; 959750; 960640; 961500; 962350;
  963180; 963990; 964790; 965570; 966330; 967070; 967800; 968520; 969220; 969900; 970570; 971220;
  971860; 972490; 973100].

(** hpp:3436-3476 *)
Definition T_CES33 : list dec := table (-6) [
  173150; 174480; 175790; 177060; 178310; 179550; 180760; 181960; 183150; 184330; 185510; 186690;
  187870; 189060; 190260; 191470; 192710; 193960; 195230; 196540; 197870; 199240; 200620; 202000;
  203370; 204700; 205980; 207190; 208310; 209330; 210230; 211000; 211660; 212230; 212740; 213210;
  213670; 214150; 214680; 215270; 215950; 216750; 217660; 218700; 219850; 221120; 222500; 224010;
  225630; 227360; 229210; 231180; 233280; 235550; 237990; 240630; 243500; 246620; 249990; 253660;
  257640; 261950; 266600; 271630; 277030; 282830; 289050; 295700; 302800; 310360; 318410; 326940;
  335920; 345270; 354940; 364870; 375000; 385270; 395620; 405990; 416310; 426540; 436670; 446670;
  456560; 466320; 475930; 485410; 494730; 503900; 512900; 521720; 530340; 538730; 546840; 554660;
  562140; 569250; 575970; 582260; 588090; 593440; 598320; 602760; 606810; 610480; 613800; 616810;
  619530; 622000; 624240; 626290; 628160; 629910; 631540; 633100; 634610; 636110; 637620; 639170;
  640790; 642510; 644320; 646210; 648160; 650180; 652230; 654320; 656440; 658560; 660680; 662790;
  664880; 666950; 668990; 671010; 672990; 674930; 676830; 678680; 680480; 682230; 683930; 685580;
  687210; 688810; 690400; 691970; 693550; 695130; 696720; 698330; 699960; 701600; 703240; 704890;
  706520; 708140; 709740; 711320; 712870; 714380; 715850; 717290; 718670; 720010; 721300; 722530;
  723710; 724820; 725880; 726870; 727810; 728720; 729600; 730480; 731360; 732260; 733190; 734170;
  735220; 736340; 737520; 738740; 739980; 741230; 742480; 743690; 744860; 745960; 746990; 747920;
  748770; 749540; 750250; 750910; 751530; 752120; 752690; 753260; 753830; 754420; 755020; 755640;
  756280; 756920; 757570; 758220; 758880; 759550; 760210; 760870; 761540; 762210; 762900; 763610;
  764350; 765110; 765910; 766750; 767630; 768560; 769540; 770550; 771590; 772650; 773720; 774790;
  775870; 776930; 777970; 778990; 779970; 780930; 781840; 782710; 783530; 784310; 785020; 785680;
  786270; 786800; 787260; 787690; 788070; 788440; 788790; 789130; 789490; 789870; 790280; 790730;
  791210; 791720; 792250; 792780; 793310; 793840; 794350; 794830; 795280; 795690; 796060; 796410;
  796740; 797060; 797370; 797690; 798030; 798380; 798770; 799190; 799650; 800130; 800640; 801180;
  801740; 802320; 802910; 803510; 804120; 804740; 805350; 805970; 806580; 807180; 807770; 808350;
  808900; 809440; 809950; 810430; 810890; 811330; 811750; 812150; 812540; 812920; 813290; 813660;
  814030; 814400; 814770; 815150; 815540; 815930; 816340; 816750; 817180; 817620; 818070; 818540;
  819030; 819520; 820030; 820550; 821080; 821620; 822160; 822710; 823260; 823810; 824360; 824900;
  825430; 825930; 826420; 826880; 827300; 827690; 828040; 828340; 828610; 828840; 829050; 829240;
  829430; 829620; 829820; 830030; 830270; 830540; 830860; 831220; 831640; 832130; 832680; 833320;
  834050; 834880; 835810; 835220; 835650; 836080; 836500; 836930; 837350; 837780; 838200; 838620;
  839040; 839460; 839880; 840300; 840720; 841140; 841550; 841970; 842380; 842790; 843210; 843620;
  844030; 844440; 844850; 845250; 845660; 846070; 846470; 846880; 847280; 847680; 848090; 848490;
  848890; 849290; 849680; 850080; 850480; 850870; 851270; 851660; 852060; 852450; 852840; 853230;
  853620; 854010; 854400; 854780].

(** hpp:3477-3517 *)
Definition T_CES34 : list dec := table (-6) [
  43542; 43559; 43576; 43593; 43610; 43627; 43644; 43661; 43678; 43695; 43712; 43729; 43746; 43763;
  43780; 43797; 43814; 43831; 43848; 43866; 43885; 43898; 43915; 43933; 43953; 43972; 43991; 44009;
  44023; 44034; 44040; 44041; 44037; 44031; 44022; 44012; 44003; 43996; 43992; 43991; 43996; 44007;
  44024; 44047; 44075; 44108; 44145; 44187; 44232; 44280; 44331; 44384; 44441; 44501; 44567; 44638;
  44716; 44802; 44896; 44999; 45112; 45237; 45375; 45528; 45699; 45889; 46101; 46337; 46599; 46890;
  47210; 47563; 47944; 48352; 48781; 49230; 49694; 50171; 50656; 51146; 51639; 52132; 52632; 53149;
  53691; 54266; 54885; 55555; 56285; 57085; 57963; 58926; 59974; 61105; 62318; 63611; 64982; 66429;
  67951; 69545; 71210; 72945; 74752; 76632; 78589; 80625; 82742; 84942; 87228; 89603; 92068; 94626;
  97274; 100010; 102830; 105730; 108720; 111770; 114910; 118110; 121380; 124720; 128140; 131660;
  135290; 139060; 142980; 147060; 151330; 155790; 160480; 165390; 170530; 175890; 181480; 187270;
  193280; 199490; 205910; 212520; 219320; 226300; 233400; 240550; 247690; 254740; 261640; 268330;
  274730; 280790; 286420; 291580; 296280; 300530; 304370; 307800; 310860; 313560; 315930; 317980;
  319750; 321240; 322490; 323520; 324340; 324970; 325450; 325800; 326020; 326150; 326210; 326220;
  326180; 326090; 325960; 325790; 325590; 325350; 325080; 324780; 324460; 324110; 323750; 323360;
  322950; 322530; 322090; 321630; 321160; 320690; 320200; 319700; 319190; 318670; 318150; 317620;
  317080; 316530; 315980; 315420; 314860; 314280; 313700; 313110; 312500; 311890; 311250; 310590;
  309920; 309210; 308490; 307730; 306950; 306140; 305300; 304430; 303540; 302620; 301680; 300710;
  299710; 298680; 297640; 296580; 295510; 294430; 293360; 292290; 291230; 290190; 289170; 288170;
  287200; 286260; 285340; 284460; 283590; 282760; 281960; 281180; 280430; 279710; 279020; 278350;
  277700; 277070; 276460; 275860; 275280; 274700; 274140; 273580; 273030; 272480; 271950; 271410;
  270890; 270370; 269860; 269350; 268850; 268360; 267880; 267400; 266940; 266490; 266050; 265640;
  265230; 264850; 264490; 264150; 263840; 263540; 263270; 263030; 262800; 262600; 262420; 262260;
  262130; 262020; 261940; 261880; 261850; 261860; 261900; 261990; 262110; 262270; 262480; 262740;
  263030; 263360; 263720; 264100; 264500; 264900; 265310; 265700; 266090; 266460; 266820; 267160;
  267510; 267860; 268210; 268580; 268970; 269380; 269810; 270280; 270780; 271280; 271780; 272280;
  272750; 273180; 273570; 273910; 274170; 274590; 274950; 275300; 275660; 276020; 276380; 276740;
  277100; 277460; 277820; 278180; 278540; 278900; 279270; 279630; 279990; 280350; 280710; 281080;
  281440; 281800; 282170; 282530; 282900; 283260; 283630; 283990; 284360; 284720; 285090; 285450;
  285820; 286190; 286560; 286920; 287290; 287660; 288030; 288400; 288760; 289130; 289500; 289870;
  290240; 290610; 290980; 291350; 291730; 292100; 292470; 292840; 293210; 293590; 293960; 294330;
  294700; 295080; 295450; 295830; 296200; 296580; 296950; 297330; 297700; 298080; 298450; 298830;
  299210; 299580; 299960; 300340; 300720; 301090; 301470; 301850; 302230; 302610; 302990; 303370].

(** hpp:3518-3558 *)
Definition T_CES35 : list dec := table (-6) [
  52651; 52641; 52631; 52621; 52611; 52601; 52591; 52581; 52571; 52561; 52552; 52542; 52532; 52522;
  52512; 52502; 52492; 52482; 52472; 52462; 52449; 52444; 52436; 52425; 52409; 52388; 52360; 52325;
  52282; 52229; 52166; 52092; 52008; 51914; 51812; 51703; 51587; 51466; 51341; 51212; 51080; 50947;
  50814; 50680; 50547; 50415; 50285; 50159; 50035; 49916; 49802; 49694; 49591; 49494; 49403; 49318;
  49240; 49168; 49102; 49042; 48989; 48943; 48904; 48872; 48846; 48828; 48817; 48813; 48816; 48827;
  48845; 48871; 48903; 48941; 48984; 49031; 49081; 49133; 49186; 49239; 49292; 49343; 49397; 49455;
  49523; 49602; 49696; 49809; 49944; 50105; 50294; 50515; 50772; 51066; 51400; 51777; 52199; 52670;
  53192; 53767; 54399; 55089; 55836; 56640; 57498; 58408; 59371; 60383; 61444; 62552; 63705; 64901;
  66134; 67397; 68683; 69985; 71295; 72607; 73913; 75207; 76481; 77730; 78951; 80144; 81308; 82441;
  83544; 84614; 85652; 86657; 87627; 88565; 89482; 90393; 91313; 92257; 93240; 94276; 95381; 96568;
  97853; 99246; 100740; 102320; 103980; 105700; 107480; 109290; 111130; 112990; 114850; 116700;
  118530; 120320; 122060; 123720; 125300; 126780; 128140; 129370; 130450; 131380; 132150; 132780;
  133290; 133680; 133960; 134150; 134260; 134300; 134280; 134210; 134100; 133950; 133770; 133550;
  133310; 133050; 132760; 132460; 132160; 131840; 131520; 131200; 130870; 130540; 130210; 129870;
  129530; 129200; 128860; 128530; 128200; 127870; 127530; 127200; 126870; 126540; 126210; 125870;
  125540; 125200; 124860; 124510; 124160; 123810; 123450; 123090; 122720; 122340; 121960; 121570;
  121170; 120760; 120350; 119920; 119490; 119050; 118600; 118140; 117670; 117190; 116700; 116210;
  115710; 115220; 114730; 114240; 113760; 113290; 112830; 112380; 111950; 111530; 111130; 110740;
  110360; 109990; 109630; 109280; 108940; 108610; 108290; 107980; 107680; 107380; 107090; 106800;
  106520; 106250; 105980; 105710; 105450; 105190; 104930; 104680; 104430; 104190; 103950; 103710;
  103490; 103260; 103040; 102830; 102620; 102420; 102230; 102040; 101860; 101700; 101540; 101390;
  101250; 101120; 100990; 100880; 100770; 100670; 100580; 100490; 100410; 100340; 100270; 100210;
  100160; 100120; 100100; 100100; 100110; 100140; 100190; 100260; 100360; 100460; 100580; 100710;
  100840; 100970; 101090; 101210; 101310; 101400; 101480; 101550; 101620; 101680; 101750; 101820;
  101910; 102010; 102130; 102270; 102420; 102590; 102760; 102930; 103100; 103270; 103410; 103540;
  103640; 103800; 103930; 104070; 104200; 104340; 104480; 104610; 104750; 104890; 105020; 105160;
  105300; 105430; 105570; 105710; 105850; 105990; 106120; 106260; 106400; 106540; 106680; 106820;
  106960; 107090; 107230; 107370; 107510; 107650; 107790; 107930; 108070; 108210; 108350; 108500;
  108640; 108780; 108920; 109060; 109200; 109340; 109490; 109630; 109770; 109910; 110050; 110200;
  110340; 110480; 110630; 110770; 110910; 111060; 111200; 111350; 111490; 111630; 111780; 111920;
  112070; 112210; 112360; 112500; 112650; 112790; 112940; 113090; 113230; 113380; 113530; 113670;
  113820; 113970; 114110; 114260; 114410; 114560; 114700; 114850].

(** hpp:3559-3599 *)
Definition T_CES36 : list dec := table (-6) [
  34314; 34654; 35058; 35570; 36236; 37075; 38061; 39149; 40302; 41518; 42834; 44321; 46071; 48169;
  50668; 53584; 56925; 60705; 64953; 69717; 75062; 79028; 83284; 87829; 92658; 97763; 103136;
  108773; 114675; 120846; 127288; 134004; 140999; 148279; 155848; 163707; 171860; 180305; 189035;
  198031; 207270; 216728; 226378; 236189; 246131; 256177; 266301; 276478; 286688; 296910; 307123;
  317310; 327453; 337533; 347522; 357395; 367130; 376703; 386085; 395235; 404130; 412744; 421050;
  429029; 436667; 443969; 450934; 457566; 463867; 469840; 475494; 480833; 485866; 490598; 495033;
  499170; 503006; 506530; 509734; 512618; 515188; 517463; 519459; 521201; 522710; 524002; 525096;
  526007; 526755; 527349; 527811; 528164; 528422; 528594; 528680; 528701; 528670; 528596; 528495;
  528391; 528316; 528274; 528273; 528315; 528403; 528534; 528696; 528888; 529106; 529343; 529591;
  529834; 530062; 530262; 530426; 530552; 530643; 530711; 530768; 530833; 530922; 531046; 531211;
  531417; 531659; 531933; 532232; 532547; 532868; 533179; 533468; 533715; 533902; 534016; 534054;
  534019; 533911; 533737; 533498; 533195; 532830; 532405; 531930; 531421; 530899; 530387; 529907;
  529479; 529113; 528818; 528600; 528457; 528382; 528368; 528406; 528482; 528580; 528684; 528780;
  528855; 528897; 528894; 528840; 528734; 528576; 528370; 528123; 527848; 527559; 527270; 526998;
  526762; 526578; 526462; 526430; 526495; 526666; 526948; 527340; 527839; 528432; 529100; 529822;
  530578; 531347; 532103; 532828; 533506; 534125; 534677; 535156; 535565; 535912; 536210; 536469;
  536704; 536931; 537164; 537410; 537679; 537978; 538313; 538688; 539105; 539566; 540071; 540616;
  541198; 541810; 542446; 543099; 543758; 544413; 545054; 545668; 546240; 546757; 547212; 547599;
  547917; 548170; 548373; 548540; 548687; 548831; 548987; 549171; 549395; 549664; 549982; 550349;
  550760; 551208; 551680; 552167; 552663; 553161; 553660; 554161; 554667; 555178; 555689; 556189;
  556663; 557094; 557462; 557751; 557953; 558062; 558079; 558008; 557863; 557667; 557441; 557216;
  557021; 556886; 556831; 556862; 556979; 557174; 557433; 557733; 558053; 558377; 558688; 558970;
  559212; 559409; 559560; 559666; 559731; 559768; 559794; 559832; 559894; 559995; 560142; 560338;
  560570; 560821; 561081; 561339; 561578; 561778; 561924; 562006; 562016; 561954; 561827; 561651;
  561449; 561230; 560997; 560751; 560412; 560168; 559972; 559766; 559481; 559120; 558430; 557644;
  556779; 555848; 554862; 553832; 552765; 551671; 550553; 549410; 548247; 547062; 545851; 544600;
  543296; 541927; 540482; 538951; 537331; 535626; 533850; 532009; 530121; 528208; 526304; 524443;
  522651; 520952; 519354; 517858; 516445; 515090; 513772; 512467; 511156; 509893; 508466; 506897;
  505230; 503531; 501796; 500284; 498773; 497261; 495750; 494239; 492728; 491217; 489706; 488195;
  486684; 485174; 483665; 482155; 480646; 479137; 477628; 476120; 474612; 473105; 471599; 470092;
  468587; 467081; 465577; 464073; 462570; 461067; 459565; 458064; 456564; 455064; 453565; 452067;
  450570; 449074; 447579; 446084; 444591; 443099; 441600; 440103; 438607; 437112; 435618; 434126;
  432634; 431144; 429656; 428169; 426683; 425199; 423717; 422237; 420758; 419281; 417806; 416332;
  414860].

(** hpp:3600-3640 *)
Definition T_CES37 : list dec := table (-6) [
  50280; 50270; 50261; 50251; 50242; 50232; 50223; 50213; 50204; 50195; 50185; 50176; 50166; 50157;
  50147; 50138; 50128; 50119; 50110; 50100; 50000; 50041; 50068; 50085; 50091; 50089; 50080; 50065;
  50046; 50024; 50000; 49976; 49954; 49935; 49920; 49911; 49909; 49915; 49932; 49959; 50000; 50054;
  50122; 50202; 50292; 50392; 50501; 50617; 50740; 50868; 51000; 51136; 51278; 51429; 51592; 51770;
  51967; 52186; 52428; 52699; 53000; 53333; 53696; 54081; 54485; 54901; 55326; 55753; 56178; 56596;
  57000; 57387; 57756; 58106; 58437; 58749; 59041; 59312; 59562; 59792; 60000; 60186; 60352; 60496;
  60621; 60728; 60816; 60886; 60940; 60978; 61000; 61009; 61014; 61022; 61045; 61091; 61169; 61290;
  61462; 61696; 62000; 62381; 62834; 63349; 63919; 64535; 65188; 65869; 66571; 67284; 68000; 68709;
  69395; 70042; 70631; 71145; 71568; 71882; 72071; 72116; 72000; 71723; 71345; 70944; 70598; 70384;
  70379; 70661; 71307; 72394; 74000; 76182; 78913; 82148; 85840; 89943; 94411; 99196; 104250;
  109540; 115000; 120590; 126260; 131940; 137570; 143090; 148450; 153580; 158420; 162910; 167000;
  170640; 173870; 176740; 179330; 181680; 183860; 185920; 187930; 189930; 192000; 194170; 196400;
  198640; 200830; 202930; 204870; 206600; 208070; 209220; 210000; 210360; 210330; 209920; 209170;
  208110; 206750; 205130; 203290; 201230; 199000; 196620; 194120; 191520; 188850; 186150; 183440;
  180730; 178080; 175490; 173000; 170630; 168390; 166270; 164280; 162420; 160680; 159070; 157580;
  156230; 155000; 153900; 152950; 152150; 151510; 151060; 150810; 150760; 150930; 151340; 152000;
  152910; 154000; 155220; 156480; 157710; 158850; 159820; 160550; 160970; 161000; 160600; 159800;
  158660; 157240; 155590; 153780; 151850; 149880; 147910; 146000; 144200; 142510; 140910; 139380;
  137920; 136500; 135110; 133750; 132380; 131000; 129600; 128170; 126740; 125300; 123860; 122440;
  121030; 119650; 118300; 117000; 115740; 114520; 113340; 112170; 111010; 109850; 108680; 107490;
  106260; 105000; 103690; 102360; 101030; 99727; 98480; 97315; 96258; 95335; 94574; 94000; 93639;
  93510; 93633; 94026; 94708; 95697; 97012; 98672; 100700; 103100; 105900; 109090; 112640; 116550;
  120800; 125370; 130250; 135430; 140880; 146600; 152570; 158770; 165210; 171880; 178770; 185870;
  193180; 200700; 208400; 216300; 224380; 232630; 241040; 249610; 258330; 267180; 276160; 285270;
  294480; 303800; 313210; 322710; 332280; 341920; 351620; 361370; 371160; 380990; 390840; 400700;
  412320; 422850; 433460; 444120; 454840; 465600; 476390; 487210; 498030; 508860; 519680; 530480;
  541250; 551990; 562670; 573300; 583860; 594340; 604740; 615050; 625250; 635340; 645320; 655170;
  664890; 674470; 683900; 693190; 702330; 711300; 720110; 728760; 737240; 745540; 753670; 761620;
  769400; 776990; 784410; 791640; 798700; 805570; 812260; 818780; 825120; 831280; 837270; 843080;
  848730; 854210; 859520; 864670; 869660; 874490; 879170; 883690; 888070; 892300; 896400; 900350;
  904170; 907860; 911420; 914850; 918170; 921360; 924440; 927410; 930280; 933030; 935690; 938250;
  940710; 943080; 945360; 947560; 949670; 951700; 953650].

(** hpp:3641-3681 *)
Definition T_CES38 : list dec := table (-6) [
  113230; 112997; 113218; 113931; 114694; 115251; 115559; 115345; 114266; 112351; 109791; 106768;
  103524; 100469; 97758; 95408; 93312; 91402; 89653; 88110; 86886; 85770; 84746; 83812; 82972;
  82241; 81656; 81253; 81070; 81123; 81421; 81956; 82728; 83753; 85097; 86814; 88936; 91465; 94410;
  97757; 101512; 105705; 110375; 115547; 121235; 127414; 134031; 141047; 148443; 156198; 164312;
  172801; 181655; 190844; 200349; 210142; 220191; 230490; 241021; 251752; 262648; 273683; 284826;
  296077; 307436; 318892; 330418; 341963; 353471; 364903; 376225; 387415; 398481; 409400; 420120;
  430598; 440799; 450684; 460254; 469511; 478444; 487061; 495372; 503345; 510981; 518293; 525276;
  531938; 538319; 544430; 550291; 555929; 561330; 566472; 571363; 575990; 580352; 584485; 588400;
  592100; 595617; 598954; 602103; 605079; 607880; 610494; 612926; 615168; 617214; 619084; 620773;
  622269; 623602; 624807; 625919; 626983; 628050; 629135; 630269; 631458; 632704; 634029; 635463;
  636974; 638535; 640113; 641670; 643159; 644582; 645926; 647191; 648359; 649408; 650311; 651073;
  651709; 652249; 652711; 653110; 653449; 653734; 653950; 654111; 654242; 654358; 654470; 654599;
  654745; 654915; 655127; 655376; 655664; 656026; 656450; 656907; 657392; 657892; 658369; 658809;
  659203; 659541; 659831; 660072; 660223; 660286; 660268; 660163; 659977; 659758; 659509; 659234;
  658941; 658629; 658301; 658009; 657789; 657654; 657615; 657675; 657804; 657988; 658223; 658493;
  658781; 659090; 659395; 659677; 659928; 660158; 660346; 660493; 660605; 660691; 660769; 660857;
  660942; 661013; 661075; 661128; 661169; 661224; 661312; 661429; 661566; 661725; 661901; 662100;
  662331; 662588; 662862; 663148; 663438; 663725; 664015; 664306; 664581; 664827; 665038; 665209;
  665339; 665444; 665534; 665604; 665671; 665756; 665853; 665972; 666133; 666329; 666560; 666844;
  667176; 667552; 667973; 668402; 668811; 669212; 669602; 669959; 670290; 670597; 670864; 671071;
  671221; 671319; 671382; 671408; 671404; 671371; 671304; 671187; 671040; 670880; 670721; 670584;
  670487; 670419; 670378; 670359; 670362; 670409; 670511; 670645; 670796; 670950; 671076; 671146;
  671174; 671169; 671133; 671061; 670952; 670808; 670637; 670441; 670241; 670053; 669883; 669726;
  669587; 669443; 669272; 669063; 668844; 668632; 668458; 668346; 668307; 668326; 668392; 668510;
  668710; 669008; 669394; 669837; 670283; 670612; 670871; 671101; 671307; 671493; 671745; 671963;
  672163; 672366; 672582; 672836; 673150; 673508; 673888; 674283; 674689; 675103; 675525; 675951;
  676380; 676810; 677238; 677666; 678109; 678573; 679083; 679671; 680346; 681093; 681900; 682734;
  683556; 684358; 685145; 685924; 686703; 687470; 688197; 688876; 689522; 690160; 690888; 691667;
  692464; 693278; 694111; 694861; 695610; 696359; 697106; 697852; 698597; 699340; 700083; 700825;
  701566; 702306; 703045; 703783; 704519; 705255; 705989; 706723; 707455; 708186; 708916; 709646;
  710374; 711101; 711827; 712551; 713275; 713998; 714719; 715440; 716159; 716877; 717594; 718310;
  719025; 719739; 720452; 721163; 721874; 722583; 723299; 724013; 724726; 725437; 726147; 726855;
  727562; 728268; 728971; 729674; 730375; 731074; 731772; 732468; 733163; 733857; 734549; 735238;
  735927].

(** hpp:3682-3722 *)
Definition T_CES39 : list dec := table (-6) [
  45658; 45673; 45687; 45702; 45716; 45731; 45745; 45760; 45775; 45789; 45804; 45818; 45833; 45848;
  45862; 45877; 45892; 45906; 45921; 45935; 46062; 46028; 46002; 45984; 45973; 45969; 45973; 45984;
  46003; 46029; 46062; 46102; 46150; 46204; 46266; 46335; 46411; 46494; 46583; 46680; 46783; 46894;
  47011; 47135; 47267; 47407; 47554; 47710; 47873; 48045; 48226; 48415; 48613; 48817; 49029; 49246;
  49468; 49694; 49923; 50156; 50390; 50626; 50863; 51104; 51349; 51600; 51857; 52120; 52393; 52674;
  52966; 53269; 53579; 53894; 54211; 54526; 54835; 55136; 55425; 55699; 55954; 56189; 56405; 56607;
  56798; 56981; 57161; 57340; 57523; 57712; 57912; 58128; 58366; 58638; 58952; 59317; 59743; 60239;
  60814; 61478; 62240; 63106; 64068; 65115; 66236; 67419; 68654; 69929; 71234; 72556; 73885; 75210;
  76522; 77815; 79079; 80307; 81491; 82624; 83697; 84702; 85632; 86481; 87252; 87950; 88583; 89155;
  89671; 90138; 90562; 90947; 91299; 91623; 91916; 92172; 92386; 92555; 92672; 92734; 92735; 92671;
  92536; 92328; 92051; 91710; 91311; 90859; 90359; 89818; 89242; 88634; 88002; 87350; 86682; 86000;
  85308; 84608; 83903; 83197; 82492; 81791; 81098; 80414; 79739; 79073; 78415; 77765; 77122; 76485;
  75854; 75227; 74606; 73989; 73381; 72785; 72206; 71650; 71120; 70620; 70156; 69731; 69350; 69017;
  68730; 68485; 68279; 68110; 67974; 67868; 67790; 67735; 67702; 67687; 67692; 67718; 67766; 67839;
  67939; 68066; 68222; 68409; 68629; 68883; 69167; 69481; 69820; 70182; 70564; 70963; 71377; 71802;
  72236; 72675; 73118; 73562; 74003; 74440; 74869; 75289; 75695; 76087; 76461; 76815; 77149; 77465;
  77763; 78045; 78312; 78564; 78802; 79028; 79243; 79447; 79641; 79826; 80001; 80168; 80327; 80479;
  80623; 80760; 80892; 81017; 81138; 81252; 81362; 81467; 81567; 81662; 81753; 81840; 81922; 82001;
  82079; 82158; 82240; 82329; 82426; 82535; 82657; 82795; 82953; 83131; 83327; 83541; 83770; 84011;
  84262; 84520; 84785; 85053; 85323; 85591; 85856; 86116; 86368; 86610; 86840; 87055; 87253; 87432;
  87590; 87725; 87838; 87931; 88007; 88068; 88115; 88150; 88176; 88195; 88208; 88218; 88224; 88228;
  88229; 88229; 88227; 88223; 88219; 88213; 88208; 88203; 88197; 88191; 88184; 88175; 88166; 88154;
  88140; 88124; 88105; 88083; 88057; 88028; 87995; 87957; 87915; 87868; 87815; 87757; 87693; 87727;
  87694; 87661; 87629; 87596; 87563; 87530; 87497; 87464; 87432; 87399; 87366; 87333; 87301; 87268;
  87235; 87203; 87170; 87137; 87105; 87072; 87039; 87007; 86974; 86941; 86909; 86876; 86844; 86811;
  86779; 86746; 86713; 86681; 86648; 86616; 86583; 86551; 86519; 86486; 86454; 86421; 86389; 86356;
  86324; 86292; 86259; 86227; 86195; 86162; 86130; 86098; 86065; 86033; 86001; 85968; 85936; 85904;
  85872; 85839; 85807; 85775; 85743; 85711; 85678; 85646; 85614; 85582; 85550; 85518; 85485; 85453;
  85421; 85389; 85357; 85325; 85293; 85261; 85229; 85197].

(** hpp:3723-3763 *)
Definition T_CES40 : list dec := table (-6) [
  75004; 75007; 75009; 75011; 75014; 75016; 75018; 75020; 75023; 75025; 75027; 75030; 75032; 75034;
  75036; 75039; 75041; 75043; 75046; 75048; 75224; 75152; 75091; 75041; 75004; 74977; 74963; 74959;
  74968; 74987; 75018; 75060; 75114; 75179; 75255; 75342; 75441; 75550; 75671; 75803; 75945; 76099;
  76264; 76441; 76628; 76828; 77039; 77263; 77498; 77746; 78006; 78279; 78565; 78863; 79174; 79498;
  79834; 80183; 80544; 80918; 81304; 81703; 82117; 82548; 82999; 83472; 83969; 84493; 85047; 85631;
  86250; 86903; 87580; 88269; 88959; 89637; 90291; 90910; 91481; 91993; 92433; 92794; 93087; 93326;
  93528; 93707; 93880; 94060; 94264; 94507; 94803; 95171; 95639; 96236; 96992; 97937; 99101; 100510;
  102210; 104210; 106550; 109250; 112280; 115610; 119200; 123020; 127030; 131200; 135480; 139850;
  144270; 148700; 153120; 157520; 161870; 166170; 170370; 174480; 178470; 182310; 186000; 189510;
  192860; 196050; 199080; 201980; 204740; 207380; 209900; 212320; 214650; 216880; 218990; 220960;
  222760; 224350; 225710; 226810; 227620; 228110; 228250; 228020; 227440; 226550; 225370; 223930;
  222260; 220400; 218370; 216200; 213930; 211570; 209150; 206670; 204140; 201580; 198990; 196390;
  193770; 191170; 188580; 186010; 183460; 180940; 178440; 175960; 173500; 171060; 168630; 166230;
  163840; 161480; 159140; 156840; 154610; 152440; 150360; 148370; 146490; 144740; 143130; 141670;
  140350; 139160; 138100; 137160; 136330; 135610; 134970; 134430; 133960; 133570; 133250; 133020;
  132880; 132860; 132940; 133140; 133480; 133960; 134580; 135360; 136280; 137330; 138500; 139780;
  141150; 142610; 144140; 145720; 147360; 149020; 150710; 152410; 154110; 155790; 157460; 159080;
  160660; 162190; 163640; 165010; 166310; 167540; 168700; 169800; 170840; 171830; 172780; 173690;
  174560; 175400; 176210; 176990; 177740; 178460; 179140; 179800; 180420; 181010; 181570; 182090;
  182590; 183060; 183500; 183910; 184300; 184680; 185030; 185370; 185690; 186000; 186310; 186610;
  186930; 187250; 187600; 187970; 188370; 188810; 189300; 189830; 190410; 191040; 191690; 192380;
  193100; 193830; 194580; 195340; 196100; 196860; 197610; 198350; 199070; 199760; 200420; 201040;
  201610; 202130; 202590; 202980; 203320; 203590; 203820; 204000; 204130; 204230; 204290; 204330;
  204340; 204340; 204310; 204270; 204210; 204130; 204040; 203930; 203810; 203670; 203520; 203350;
  203170; 202980; 202770; 202540; 202300; 202040; 201760; 201460; 201150; 200810; 200460; 200080;
  199680; 199270; 198820; 198360; 197870; 197360; 196820; 196780; 196390; 196010; 195620; 195240;
  194860; 194470; 194090; 193710; 193330; 192950; 192570; 192190; 191810; 191440; 191060; 190680;
  190310; 189930; 189560; 189180; 188810; 188430; 188060; 187690; 187320; 186950; 186580; 186210;
  185840; 185470; 185100; 184730; 184370; 184000; 183640; 183270; 182910; 182540; 182180; 181810;
  181450; 181090; 180730; 180370; 180010; 179650; 179290; 178930; 178570; 178220; 177860; 177500;
  177150; 176790; 176440; 176080; 175730; 175380; 175020; 174670; 174320; 173970; 173620; 173270;
  172920; 172570; 172230; 171880; 171530; 171190; 170840; 170490; 170150; 169810; 169460; 169120;
  168780; 168440].

(** hpp:3764-3804 *)
Definition T_CES41 : list dec := table (-6) [
  379730; 381200; 382680; 384160; 385630; 387120; 388600; 390080; 391570; 393060; 394550; 396040;
  397540; 399040; 400530; 402040; 403540; 405040; 406550; 408060; 409800; 410940; 412370; 414020;
  415830; 417750; 419720; 421680; 423560; 425330; 426900; 428250; 429390; 430390; 431270; 432090;
  432890; 433720; 434610; 435630; 436800; 438170; 439730; 441480; 443390; 445460; 447670; 450010;
  452470; 455040; 457700; 460440; 463270; 466190; 469200; 472310; 475520; 478840; 482280; 485830;
  489500; 493300; 497220; 501280; 505460; 509770; 514220; 518790; 523490; 528330; 533300; 538400;
  543630; 548970; 554420; 559960; 565590; 571300; 577080; 582910; 588800; 594720; 600680; 606640;
  612600; 618540; 624450; 630320; 636120; 641860; 647500; 653040; 658470; 663770; 668940; 673960;
  678830; 683530; 688040; 692370; 696500; 700420; 704130; 707620; 710910; 713980; 716850; 719500;
  721940; 724180; 726200; 728020; 729630; 731050; 732290; 733360; 734260; 735010; 735610; 736070;
  736400; 736610; 736710; 736700; 736590; 736380; 736090; 735720; 735280; 734770; 734200; 733580;
  732900; 732180; 731420; 730610; 729770; 728890; 727990; 727060; 726100; 725120; 724130; 723110;
  722070; 721020; 719950; 718860; 717760; 716640; 715500; 714350; 713190; 712020; 710840; 709670;
  708500; 707330; 706170; 705030; 703900; 702790; 701700; 700640; 699610; 698600; 697630; 696690;
  695790; 694920; 694100; 693320; 692580; 691890; 691240; 690620; 690040; 689500; 689000; 688530;
  688100; 687700; 687320; 686970; 686630; 686300; 685980; 685650; 685320; 684970; 684600; 684210;
  683790; 683360; 682900; 682430; 681940; 681450; 680940; 680420; 679900; 679380; 678850; 678330;
  677810; 677290; 676790; 676290; 675810; 675350; 674900; 674470; 674070; 673690; 673330; 673000;
  672700; 672430; 672190; 671980; 671800; 671660; 671550; 671460; 671410; 671370; 671350; 671350;
  671360; 671380; 671400; 671430; 671460; 671500; 671560; 671640; 671740; 671870; 672040; 672250;
  672500; 672800; 673160; 673580; 674070; 674640; 675290; 676040; 676880; 677830; 678900; 680090;
  681400; 682850; 684430; 686160; 688030; 690050; 692240; 694590; 697100; 699790; 702640; 705660;
  708840; 712180; 715660; 719290; 723060; 726960; 731000; 735160; 739440; 743820; 748290; 752840;
  757460; 762140; 766860; 771620; 776400; 781190; 785980; 790760; 795520; 800250; 804930; 809560;
  814120; 818600; 823000; 827300; 831500; 835590; 839570; 843430; 847180; 850810; 854300; 857670;
  860900; 863990; 866960; 869800; 872540; 875180; 877720; 880190; 882580; 884920; 887200; 889440;
  891610; 893700; 895680; 897540; 899240; 900770; 902100; 903220; 904100; 905490; 906650; 907810;
  908950; 910080; 911200; 912310; 913400; 914480; 915550; 916610; 917650; 918680; 919700; 920710;
  921710; 922690; 923670; 924630; 925580; 926520; 927450; 928370; 929280; 930180; 931060; 931940;
  932810; 933660; 934510; 935340; 936170; 936990; 937790; 938590; 939370; 940150; 940920; 941680;
  942430; 943170; 943900; 944630; 945340; 946040; 946740; 947430; 948110; 948780; 949450; 950100;
  950750; 951390; 952020; 952640; 953260; 953870; 954470; 955060; 955650; 956220; 956800; 957360;
  957920; 958470; 959010; 959550; 960080; 960600; 961120; 961630; 962130; 962630; 963120; 963600;
  964080; 964560; 965020; 965480].

(** hpp:3805-3845 *)
Definition T_CES42 : list dec := table (-6) [
  65979; 65857; 65736; 65615; 65494; 65373; 65252; 65132; 65012; 64892; 64772; 64652; 64533; 64414;
  64295; 64176; 64057; 63939; 63821; 63703; 63744; 63565; 63393; 63228; 63071; 62924; 62787; 62661;
  62546; 62443; 62354; 62279; 62218; 62172; 62143; 62131; 62137; 62161; 62205; 62269; 62354; 62460;
  62587; 62732; 62894; 63072; 63264; 63468; 63684; 63908; 64141; 64381; 64627; 64879; 65137; 65402;
  65674; 65951; 66235; 66526; 66822; 67125; 67437; 67760; 68095; 68445; 68812; 69199; 69607; 70038;
  70496; 70981; 71499; 72052; 72645; 73281; 73964; 74699; 75488; 76336; 77248; 78224; 79265; 80369;
  81532; 82754; 84032; 85363; 86746; 88179; 89659; 91185; 92763; 94398; 96095; 97861; 99702; 101620;
  103630; 105730; 107930; 110230; 112670; 115260; 118020; 120990; 124200; 127650; 131390; 135430;
  139800; 144530; 149640; 155170; 161150; 167610; 174590; 182100; 190190; 198880; 208210; 218200;
  228810; 240000; 251740; 263990; 276700; 289820; 303330; 317180; 331330; 345720; 360260; 374810;
  389270; 403520; 417440; 430910; 443810; 456030; 467460; 477980; 487610; 496350; 504220; 511240;
  517410; 522770; 527330; 531090; 534080; 536320; 537850; 538710; 538950; 538610; 537750; 536400;
  534620; 532440; 529910; 527080; 523960; 520570; 516920; 513040; 508930; 504620; 500110; 495430;
  490590; 485610; 480500; 475290; 470000; 464660; 459270; 453870; 448470; 443100; 437770; 432510;
  427310; 422180; 417110; 412110; 407160; 402270; 397430; 392650; 387930; 383250; 378640; 374100;
  369640; 365270; 361010; 356870; 352850; 348970; 345230; 341650; 338220; 334940; 331790; 328770;
  325880; 323090; 320410; 317830; 315340; 312940; 310610; 308360; 306170; 304040; 301970; 299940;
  297960; 296010; 294100; 292200; 290330; 288480; 286640; 284800; 282970; 281150; 279310; 277480;
  275630; 273770; 271890; 270020; 268130; 266250; 264370; 262500; 260640; 258790; 256960; 255160;
  253390; 251660; 249990; 248390; 246860; 245430; 244090; 242870; 241770; 240810; 239980; 239300;
  238770; 238400; 238190; 238150; 238280; 238590; 239090; 239780; 240650; 241700; 242940; 244360;
  245950; 247710; 249640; 251730; 253980; 256390; 258940; 261580; 264310; 267090; 269900; 272710;
  275500; 278230; 280890; 283450; 285910; 288260; 290510; 292670; 294720; 296670; 298530; 300280;
  301940; 303510; 305010; 306470; 307920; 309390; 310900; 312500; 314200; 316030; 318030; 320210;
  322600; 325190; 328000; 331030; 334290; 337790; 341540; 345540; 349800; 354330; 359140; 364230;
  369610; 375290; 381290; 387590; 394220; 401180; 408480; 409770; 415280; 420800; 426350; 431910;
  437490; 443090; 448700; 454320; 459960; 465600; 471260; 476920; 482590; 488260; 493940; 499610;
  505290; 510970; 516640; 522310; 527970; 533630; 539270; 544910; 550540; 556150; 561750; 567330;
  572900; 578450; 583970; 589480; 594960; 600420; 605860; 611270; 616650; 622010; 627330; 632620;
  637890; 643120; 648310; 653470; 658600; 663680; 668730; 673740; 678720; 683650; 688540; 693390;
  698200; 702960; 707680; 712360; 716990; 721570; 726110; 730600; 735050; 739450; 743800; 748100;
  752360; 756570; 760730; 764830; 768890; 772910; 776870; 780780; 784640; 788450; 792220; 795930;
  799590; 803210].

(** hpp:3846-3886 *)
Definition T_CES43 : list dec := table (-6) [
  88623; 87423; 86238; 85067; 83911; 82769; 81641; 80528; 79428; 78342; 77269; 76210; 75164; 74132;
  73112; 72106; 71112; 70131; 69162; 68206; 67100; 66418; 65564; 64569; 63462; 62275; 61038; 59781;
  58536; 57332; 56200; 55165; 54228; 53385; 52630; 51959; 51368; 50851; 50404; 50022; 49700; 49434;
  49221; 49055; 48933; 48850; 48804; 48790; 48804; 48842; 48900; 48975; 49070; 49187; 49330; 49502;
  49705; 49943; 50220; 50538; 50900; 51310; 51775; 52299; 52891; 53555; 54300; 55130; 56052; 57074;
  58200; 59436; 60782; 62232; 63786; 65439; 67189; 69033; 70969; 72992; 75100; 77297; 79611; 82078;
  84734; 87613; 90751; 94183; 97945; 102070; 106600; 111550; 116910; 122650; 128740; 135150; 141850;
  148810; 156010; 163420; 171000; 178740; 186680; 194840; 203280; 212030; 221130; 230630; 240560;
  250970; 261900; 273370; 285320; 297680; 310360; 323300; 336410; 349630; 362870; 376050; 389100;
  401950; 414540; 426820; 438730; 450240; 461270; 471790; 481730; 491050; 499700; 507630; 514870;
  521430; 527340; 532630; 537330; 541460; 545040; 548120; 550700; 552820; 554510; 555780; 556680;
  557220; 557430; 557330; 556960; 556340; 555500; 554460; 553230; 551830; 550260; 548540; 546670;
  544670; 542560; 540330; 538000; 535580; 533080; 530490; 527820; 525060; 522240; 519330; 516360;
  513310; 510200; 507020; 503790; 500500; 497180; 493820; 490430; 487030; 483620; 480210; 476800;
  473410; 470030; 466670; 463340; 460020; 456740; 453480; 450250; 447060; 443900; 440780; 437690;
  434640; 431610; 428610; 425640; 422680; 419740; 416810; 413900; 410990; 408070; 405120; 402120;
  399050; 395890; 392630; 389240; 385700; 382000; 378130; 374110; 370000; 365820; 361630; 357470;
  353370; 349380; 345550; 341900; 338480; 335300; 332350; 329640; 327170; 324930; 322940; 321180;
  319670; 318400; 317370; 316550; 315930; 315460; 315120; 314880; 314720; 314610; 314510; 314400;
  314260; 314080; 313870; 313630; 313360; 313070; 312750; 312420; 312070; 311700; 311320; 310930;
  310530; 310110; 309680; 309230; 308770; 308300; 307810; 307300; 306770; 306170; 305460; 304580;
  303490; 302130; 300470; 298440; 296000; 293100; 289710; 285860; 281600; 276990; 272080; 266920;
  261560; 256050; 250450; 244800; 239160; 233590; 228130; 222840; 217770; 212980; 208510; 204420;
  200770; 197600; 194960; 192810; 191120; 189850; 188940; 188360; 188070; 188030; 188180; 188500;
  188960; 189660; 190710; 192250; 194370; 197210; 200880; 205510; 211210; 218100; 226230; 235360;
  245180; 255390; 265670; 275710; 285200; 293830; 301310; 307300; 316930; 325300; 333780; 342370;
  351070; 359860; 368750; 377730; 386800; 395940; 405160; 414440; 423790; 433190; 442640; 452130;
  461650; 471210; 480780; 490370; 499970; 509560; 519150; 528730; 538280; 547800; 557300; 566740;
  576150; 585490; 594780; 603990; 613140; 622200; 631180; 640070; 648870; 657570; 666160; 674640;
  683010; 691260; 699390; 707400; 715280; 723040; 730660; 738150; 745500; 752710; 759790; 766720;
  773520; 780170; 786690; 793060; 799290; 805380; 811320; 817130; 822790; 828320; 833710; 838970;
  844090; 849070; 853930; 858650; 863240; 867710; 872060; 876280; 880380; 884370; 888230; 891990;
  895630; 899170; 902590].

(** hpp:3887-3927 *)
Definition T_CES44 : list dec := table (-6) [
  41634; 41743; 41853; 41964; 42074; 42185; 42296; 42408; 42520; 42632; 42744; 42857; 42969; 43083;
  43196; 43310; 43424; 43538; 43653; 43767; 43900; 43988; 44097; 44223; 44362; 44509; 44658; 44807;
  44950; 45082; 45200; 45299; 45381; 45449; 45503; 45548; 45585; 45616; 45644; 45671; 45700; 45732;
  45767; 45805; 45845; 45887; 45930; 45973; 46016; 46059; 46100; 46140; 46178; 46216; 46253; 46291;
  46330; 46369; 46410; 46454; 46500; 46549; 46600; 46653; 46707; 46761; 46814; 46865; 46913; 46959;
  47000; 47037; 47069; 47097; 47120; 47141; 47158; 47172; 47184; 47193; 47200; 47206; 47211; 47218;
  47226; 47239; 47256; 47279; 47310; 47350; 47400; 47461; 47532; 47612; 47699; 47792; 47890; 47991;
  48094; 48197; 48300; 48401; 48500; 48598; 48695; 48793; 48891; 48990; 49091; 49194; 49300; 49409;
  49521; 49634; 49748; 49862; 49975; 50086; 50194; 50299; 50400; 50496; 50586; 50670; 50750; 50823;
  50891; 50952; 51008; 51057; 51100; 51137; 51167; 51191; 51209; 51221; 51228; 51229; 51224; 51215;
  51200; 51180; 51156; 51129; 51099; 51067; 51033; 50999; 50965; 50932; 50900; 50870; 50843; 50816;
  50789; 50762; 50734; 50705; 50673; 50638; 50600; 50558; 50512; 50463; 50412; 50360; 50307; 50253;
  50201; 50149; 50100; 50053; 50008; 49963; 49919; 49873; 49826; 49776; 49722; 49664; 49600; 49530;
  49456; 49378; 49299; 49221; 49145; 49074; 49008; 48949; 48900; 48861; 48833; 48812; 48799; 48792;
  48789; 48790; 48793; 48797; 48800; 48802; 48802; 48802; 48801; 48799; 48798; 48797; 48797; 48798;
  48800; 48804; 48809; 48814; 48819; 48823; 48825; 48825; 48821; 48813; 48800; 48782; 48760; 48735;
  48709; 48683; 48658; 48636; 48618; 48605; 48600; 48603; 48613; 48630; 48654; 48684; 48719; 48759;
  48803; 48850; 48900; 48952; 49007; 49063; 49121; 49181; 49242; 49305; 49369; 49434; 49500; 49567;
  49635; 49703; 49773; 49842; 49913; 49984; 50056; 50128; 50200; 50273; 50346; 50421; 50497; 50574;
  50654; 50736; 50821; 50909; 51000; 51095; 51193; 51293; 51394; 51497; 51600; 51703; 51804; 51903;
  52000; 52094; 52183; 52269; 52349; 52424; 52494; 52556; 52612; 52660; 52700; 52732; 52755; 52770;
  52779; 52780; 52775; 52764; 52748; 52726; 52700; 52670; 52636; 52598; 52559; 52517; 52474; 52431;
  52387; 52343; 52300; 52259; 52219; 52181; 52146; 52113; 52084; 52057; 52034; 52015; 52000; 51975;
  51954; 51933; 51912; 51891; 51870; 51849; 51828; 51807; 51787; 51766; 51745; 51724; 51703; 51682;
  51661; 51640; 51620; 51599; 51578; 51557; 51536; 51516; 51495; 51474; 51453; 51432; 51412; 51391;
  51370; 51349; 51329; 51308; 51287; 51266; 51246; 51225; 51204; 51184; 51163; 51142; 51122; 51101;
  51080; 51060; 51039; 51019; 50998; 50977; 50957; 50936; 50916; 50895; 50875; 50854; 50833; 50813;
  50792; 50772; 50751; 50731; 50710; 50690; 50669; 50649; 50628; 50608; 50588; 50567; 50547; 50526;
  50506; 50485; 50465; 50445; 50424; 50404; 50383; 50363].

(** hpp:3928-3968 *)
Definition T_CES45 : list dec := table (-6) [
  55400; 54600; 55000; 55186; 55200; 55186; 55257; 55314; 55643; 55871; 56086; 56300; 56586; 57043;
  57243; 57229; 57486; 57700; 57643; 57657; 57600; 57557; 57600; 57500; 57500; 57729; 57843; 57771;
  57986; 58171; 58414; 58586; 58786; 58814; 58914; 59000; 59400; 59771; 60100; 60300; 60757; 61257;
  61543; 61614; 61714; 61814; 62186; 62600; 62800; 63186; 63643; 63914; 64200; 64529; 64857; 65357;
  65814; 66214; 66914; 67686; 68414; 69000; 69500; 69929; 70371; 70629; 71086; 71429; 72000; 72571;
  73329; 74300; 75400; 76157; 77257; 78314; 79414; 80586; 81957; 83143; 84700; 86186; 87786; 89543;
  91457; 93114; 95071; 97029; 99043; 101030; 103130; 105110; 107410; 109890; 112530; 115230; 118230;
  121060; 124030; 127270; 130640; 133810; 137600; 141240; 145270; 149610; 154060; 158330; 163340;
  168230; 173590; 179030; 184700; 190410; 197200; 203690; 210590; 217630; 225070; 232260; 239960;
  246900; 254090; 260840; 267790; 274140; 280800; 286870; 293000; 298660; 304430; 309260; 314010;
  318200; 322060; 325370; 328490; 330900; 333590; 335910; 337560; 338990; 340490; 341370; 342070;
  342530; 342740; 343060; 343040; 342700; 342390; 342090; 341230; 340210; 339040; 337970; 336630;
  335330; 333590; 332010; 330440; 328910; 326910; 325290; 323240; 321470; 319940; 318460; 316270;
  314500; 312290; 309900; 307460; 305000; 301890; 299140; 295790; 292490; 289700; 287400; 284790;
  283070; 281410; 279760; 277810; 276390; 274310; 271860; 269010; 266140; 263070; 260570; 257590;
  254260; 251290; 248610; 245660; 243090; 240190; 237160; 234260; 231210; 227860; 225040; 222190;
  219430; 216690; 213960; 211170; 208630; 205760; 202740; 199610; 196730; 193800; 191140; 188630;
  186200; 183970; 182090; 179900; 177960; 176170; 174460; 172870; 171590; 170070; 169060; 168160;
  167030; 165710; 164740; 163670; 162600; 161490; 160470; 159630; 159070; 158430; 157790; 157390;
  156940; 156270; 155600; 155030; 154540; 154310; 154100; 153660; 153610; 153640; 153410; 153200;
  152810; 152260; 152040; 151700; 151170; 150730; 150460; 150240; 150300; 150290; 150230; 150330;
  150390; 150390; 150470; 150440; 150390; 150370; 150330; 150210; 150100; 150240; 150410; 150590;
  150900; 151530; 151960; 152340; 152490; 152800; 153200; 153590; 153670; 154730; 155910; 157100;
  158130; 159240; 160410; 161730; 162530; 163230; 163940; 164700; 165360; 166100; 166840; 167370;
  167860; 168470; 168960; 169030; 169140; 169600; 170600; 171470; 172300; 173300; 174660; 175840;
  176660; 177040; 177730; 178400; 178940; 179500; 179830; 179870; 180130; 180200; 179940; 180000;
  180200; 180260; 180540; 180500; 180300; 180000; 179730; 179160; 178590; 178060; 177730; 177370;
  177100; 176500; 175960; 175860; 175700; 175460; 175540; 175990; 176440; 177060; 177460; 177810;
  178170; 178470; 178610; 179040; 179690; 180370; 181160; 182230; 183390; 184770; 186160; 187470;
  188760; 190410; 192030; 193640; 195260; 196870; 198470; 200300; 201930; 203190; 204490; 205740;
  206890; 208140; 209300; 210270; 211340; 212340; 213130; 214070; 214970; 215810; 216630; 217670;
  218640; 219730; 220490; 220460; 220200; 219970; 219500; 218790; 218070; 217660; 217840; 218110;
  218400; 218340; 218670].

(** hpp:3969-4009 *)
Definition T_CES46 : list dec := table (-6) [
  99822; 100420; 101030; 101640; 102250; 102870; 103490; 104110; 104730; 105360; 105990; 106630;
  107270; 107910; 108560; 109200; 109860; 110510; 111170; 111830; 112600; 113110; 113750; 114480;
  115290; 116150; 117030; 117890; 118730; 119510; 120200; 120790; 121280; 121680; 122020; 122310;
  122560; 122790; 123010; 123250; 123500; 123790; 124120; 124480; 124880; 125320; 125790; 126300;
  126830; 127400; 128000; 128630; 129290; 129990; 130740; 131520; 132350; 133230; 134160; 135150;
  136200; 137310; 138490; 139740; 141060; 142450; 143930; 145490; 147130; 148870; 150700; 152630;
  154660; 156790; 159040; 161410; 163900; 166520; 169270; 172160; 175200; 178380; 181720; 185200;
  188830; 192610; 196530; 200600; 204820; 209190; 213700; 218350; 223140; 228060; 233090; 238220;
  243450; 248760; 254150; 259600; 265100; 270640; 276210; 281790; 287350; 292890; 298380; 303800;
  309140; 314380; 319500; 324490; 329330; 334030; 338580; 342970; 347200; 351260; 355150; 358870;
  362400; 365750; 368920; 371900; 374710; 377350; 379810; 382100; 384230; 386200; 388000; 389650;
  391140; 392490; 393700; 394770; 395710; 396530; 397230; 397820; 398300; 398680; 398960; 399160;
  399270; 399310; 399280; 399190; 399040; 398840; 398600; 398320; 398000; 397650; 397260; 396820;
  396340; 395820; 395260; 394650; 394000; 393300; 392550; 391760; 390920; 390030; 389100; 388120;
  387090; 386020; 384900; 383740; 382530; 381280; 380010; 378700; 377370; 376020; 374660; 373280;
  371900; 370510; 369120; 367730; 366320; 364900; 363460; 362010; 360530; 359030; 357500; 355940;
  354350; 352730; 351070; 349380; 347650; 345880; 344060; 342200; 340300; 338350; 336350; 334290;
  332180; 330000; 327760; 325460; 323080; 320630; 318100; 315490; 312810; 310080; 307290; 304470;
  301630; 298760; 295900; 293040; 290200; 287390; 284610; 281880; 279190; 276560; 273980; 271470;
  269040; 266680; 264400; 262210; 260110; 258100; 256170; 254330; 252560; 250880; 249280; 247750;
  246300; 244920; 243620; 242370; 241180; 240040; 238950; 237890; 236870; 235880; 234900; 233940;
  233000; 232070; 231150; 230250; 229370; 228500; 227650; 226820; 226000; 225200; 224410; 223650;
  222900; 222180; 221470; 220790; 220140; 219510; 218900; 218320; 217770; 217260; 216770; 216330;
  215920; 215550; 215220; 214940; 214700; 214510; 214370; 214270; 214220; 214220; 214250; 214330;
  214450; 214610; 214800; 215030; 215300; 215600; 215920; 216280; 216660; 217070; 217490; 217940;
  218400; 218880; 219370; 219880; 220420; 220980; 221560; 222170; 222810; 223490; 224200; 224940;
  225710; 226490; 227250; 227990; 228690; 229340; 229920; 230410; 230800; 231420; 231950; 232490;
  233020; 233560; 234090; 234630; 235160; 235700; 236240; 236780; 237320; 237860; 238410; 238950;
  239490; 240040; 240580; 241130; 241680; 242230; 242770; 243320; 243880; 244430; 244980; 245530;
  246090; 246640; 247200; 247750; 248310; 248870; 249430; 249990; 250550; 251110; 251670; 252240;
  252800; 253370; 253930; 254500; 255070; 255640; 256210; 256780; 257350; 257920; 258490; 259060;
  259640; 260210; 260790; 261370; 261940; 262520; 263100; 263680; 264260; 264840; 265420; 266010;
  266590; 267180; 267760; 268350; 268940; 269520; 270110; 270700; 271290; 271880; 272480; 273070;
  273660; 274260; 274850; 275450].

(** hpp:4010-4050 *)
Definition T_CES47 : list dec := table (-6) [
  142540; 142640; 142740; 142840; 142950; 143050; 143150; 143250; 143350; 143460; 143560; 143660;
  143760; 143870; 143970; 144070; 144170; 144280; 144380; 144480; 144600; 144680; 144770; 144890;
  145010; 145140; 145280; 145420; 145550; 145680; 145800; 145910; 146010; 146130; 146280; 146460;
  146690; 146990; 147360; 147830; 148400; 149080; 149880; 150790; 151810; 152940; 154170; 155500;
  156940; 158470; 160100; 161820; 163640; 165560; 167580; 169700; 171930; 174280; 176730; 179310;
  182000; 184820; 187760; 190830; 194030; 197370; 200850; 204460; 208230; 212140; 216200; 220420;
  224790; 229320; 234010; 238860; 243870; 249050; 254400; 259910; 265600; 271460; 277480; 283670;
  290010; 296500; 303130; 309900; 316810; 323840; 331000; 338270; 345630; 353050; 360520; 368000;
  375480; 382920; 390310; 397610; 404800; 411860; 418750; 425450; 431910; 438110; 444010; 449590;
  454800; 459610; 464000; 467930; 471420; 474470; 477100; 479330; 481160; 482610; 483690; 484410;
  484800; 484860; 484620; 484090; 483310; 482290; 481060; 479650; 478060; 476340; 474500; 472560;
  470540; 468430; 466260; 464020; 461730; 459400; 457020; 454620; 452200; 449760; 447320; 444870;
  442410; 439950; 437490; 435030; 432580; 430130; 427700; 425280; 422870; 420480; 418120; 415770;
  413460; 411170; 408910; 406690; 404500; 402350; 400240; 398170; 396130; 394120; 392150; 390200;
  388270; 386380; 384500; 382650; 380810; 379000; 377210; 375430; 373680; 371960; 370250; 368560;
  366900; 365260; 363640; 362050; 360480; 358950; 357450; 355980; 354550; 353150; 351800; 350490;
  349220; 348010; 346850; 345750; 344710; 343750; 342850; 342040; 341300; 340650; 340070; 339560;
  339110; 338700; 338330; 337980; 337650; 337330; 337000; 336660; 336300; 335910; 335500; 335060;
  334580; 334060; 333490; 332870; 332200; 331470; 330690; 329860; 328990; 328080; 327140; 326180;
  325200; 324200; 323200; 322200; 321210; 320250; 319330; 318480; 317690; 317000; 316410; 315940;
  315600; 315410; 315380; 315530; 315850; 316360; 317070; 317990; 319120; 320490; 322100; 323960;
  326060; 328430; 331060; 333950; 337100; 340540; 344240; 348230; 352500; 357060; 361900; 367020;
  372420; 378090; 384020; 390230; 396700; 403420; 410400; 417630; 425100; 432800; 440710; 448840;
  457160; 465670; 474350; 483200; 492200; 501340; 510610; 519980; 529440; 538970; 548540; 558130;
  567740; 577340; 586900; 596420; 605870; 615250; 624550; 633750; 642840; 651810; 660660; 669360;
  677900; 686280; 694510; 702590; 710530; 718340; 726030; 733620; 741100; 748490; 755800; 763020;
  770090; 776930; 783450; 789580; 795230; 800330; 804800; 808550; 811500; 816070; 819910; 823700;
  827420; 831070; 834670; 838200; 841680; 845090; 848440; 851730; 854970; 858140; 861260; 864310;
  867320; 870260; 873150; 875980; 878760; 881490; 884160; 886780; 889350; 891870; 894330; 896750;
  899120; 901440; 903710; 905930; 908110; 910240; 912330; 914380; 916380; 918340; 920250; 922130;
  923960; 925760; 927510; 929230; 930910; 932560; 934160; 935730; 937270; 938770; 940240; 941680;
  943080; 944450; 945790; 947100; 948380; 949630; 950850; 952040; 953210; 954350; 955460; 956550;
  957610; 958640; 959660; 960640; 961610; 962550; 963470; 964370; 965250; 966100; 966940; 967760;
  968550; 969330; 970090; 970830].

(** hpp:4051-4091 *)
Definition T_CES48 : list dec := table (-6) [
  87762; 87867; 87989; 88125; 88273; 88432; 88600; 88775; 88955; 89139; 89325; 89511; 89695; 89875;
  90050; 90218; 90377; 90525; 90661; 90783; 90888; 90977; 91058; 91138; 91228; 91335; 91469; 91639;
  91853; 92121; 92451; 92856; 93362; 93998; 94796; 95783; 96990; 98446; 100180; 102230; 104610;
  107350; 110440; 113850; 117560; 121540; 125770; 130230; 134890; 139740; 144740; 149880; 155150;
  160560; 166110; 171790; 177610; 183560; 189660; 195890; 202270; 208790; 215440; 222220; 229130;
  236160; 243300; 250550; 257910; 265370; 272920; 280560; 288260; 296010; 303770; 311530; 319260;
  326930; 334530; 342030; 349400; 356630; 363710; 370650; 377440; 384080; 390580; 396940; 403150;
  409230; 415160; 420950; 426610; 432140; 437540; 442820; 447980; 453020; 457960; 462800; 467530;
  472170; 476710; 481150; 485480; 489710; 493830; 497840; 501740; 505520; 509180; 512720; 516150;
  519470; 522690; 525830; 528880; 531860; 534770; 537620; 540420; 543180; 545890; 548570; 551220;
  553830; 556410; 558960; 561480; 563980; 566460; 568920; 571350; 573740; 576090; 578380; 580600;
  582750; 584820; 586790; 588660; 590420; 592080; 593630; 595100; 596480; 597790; 599020; 600190;
  601300; 602360; 603370; 604340; 605240; 606070; 606830; 607510; 608090; 608570; 608950; 609210;
  609350; 609350; 609230; 608970; 608570; 608020; 607320; 606460; 605450; 604270; 602930; 601420;
  599770; 597980; 596070; 594030; 591890; 589640; 587310; 584900; 582420; 579860; 577200; 574450;
  571590; 568600; 565480; 562210; 558800; 555210; 551450; 547530; 543470; 539270; 534950; 530530;
  526020; 521440; 516800; 512110; 507390; 502640; 497860; 493050; 488210; 483330; 478430; 473500;
  468530; 463540; 458520; 453470; 448400; 443320; 438240; 433160; 428080; 423030; 417990; 412980;
  408000; 403060; 398160; 393290; 388460; 383660; 378900; 374180; 369500; 364860; 360260; 355700;
  351190; 346720; 342310; 337960; 333670; 329430; 325270; 321170; 317140; 313190; 309310; 305500;
  301770; 298110; 294520; 291010; 287570; 284200; 280910; 277690; 274540; 271450; 268440; 265490;
  262600; 259770; 257000; 254290; 251630; 249030; 246490; 244010; 241580; 239220; 236920; 234680;
  232510; 230400; 228360; 226380; 224460; 222600; 220800; 219050; 217340; 215680; 214060; 212480;
  210940; 209430; 207950; 206520; 205110; 203740; 202410; 201110; 199850; 198620; 197430; 196270;
  195140; 194050; 193000; 191980; 191000; 190050; 189140; 188270; 187430; 186640; 185870; 185140;
  184440; 183770; 183130; 182520; 181930; 181370; 180830; 180320; 179830; 179370; 178930; 178520;
  178130; 177770; 177440; 177130; 176850; 176600; 176370; 176170; 175990; 175850; 175720; 175620;
  175550; 175500; 175470; 175470; 175500; 175550; 175640; 175750; 175890; 176070; 176280; 176520;
  176800; 177120; 177470; 177860; 178300; 178770; 179290; 179850; 180460; 181110; 180880; 181270;
  181650; 182040; 182430; 182810; 183200; 183590; 183980; 184370; 184760; 185150; 185540; 185940;
  186330; 186720; 187120; 187510; 187910; 188310; 188700; 189100; 189500; 189900; 190300; 190700;
  191100; 191500; 191900; 192300; 192710; 193110; 193520; 193920; 194330; 194730; 195140; 195550;
  195960; 196370; 196780; 197190; 197600; 198010; 198420; 198840; 199250; 199660; 200080].

(** hpp:4092-4132 *)
Definition T_CES49 : list dec := table (-6) [
  572; 1977; 3359; 4720; 6063; 7391; 8705; 10009; 11306; 12597; 13886; 15175; 16466; 17763; 19067;
  20382; 21709; 23052; 24413; 25795; 27200; 28628; 30069; 31511; 32939; 34341; 35705; 37017; 38265;
  39434; 40514; 41493; 42373; 43157; 43851; 44457; 44981; 45426; 45796; 46095; 46328; 46499; 46618;
  46693; 46734; 46751; 46754; 46751; 46753; 46769; 46809; 46880; 46984; 47119; 47286; 47482; 47709;
  47964; 48247; 48557; 48894; 49257; 49650; 50074; 50533; 51029; 51566; 52147; 52774; 53451; 54181;
  54967; 55814; 56730; 57720; 58791; 59950; 61203; 62555; 64014; 65586; 67276; 69086; 71017; 73068;
  75241; 77536; 79953; 82494; 85159; 87948; 90861; 93892; 97036; 100280; 103630; 107070; 110600;
  114210; 117880; 121630; 125430; 129280; 133140; 137010; 140870; 144680; 148440; 152130; 155730;
  159210; 162560; 165790; 168880; 171850; 174690; 177400; 179990; 182450; 184790; 187010; 189110;
  191080; 192930; 194660; 196270; 197750; 199100; 200330; 201430; 202410; 203260; 203980; 204580;
  205060; 205420; 205660; 205790; 205810; 205730; 205530; 205230; 204840; 204350; 203780; 203130;
  202410; 201620; 200780; 199890; 198950; 197970; 196960; 195900; 194820; 193690; 192530; 191330;
  190100; 188840; 187540; 186210; 184840; 183450; 182020; 180560; 179070; 177540; 175990; 174410;
  172790; 171150; 169470; 167780; 166080; 164360; 162630; 160900; 159170; 157450; 155740; 154040;
  152360; 150700; 149050; 147410; 145800; 144190; 142600; 141030; 139470; 137930; 136400; 134900;
  133420; 131970; 130540; 129160; 127810; 126500; 125230; 124010; 122830; 121690; 120590; 119510;
  118470; 117450; 116450; 115460; 114490; 113530; 112570; 111630; 110690; 109770; 108860; 107960;
  107060; 106190; 105320; 104470; 103630; 102800; 101990; 101200; 100420; 99663; 98923; 98203;
  97504; 96826; 96171; 95540; 94935; 94355; 93804; 93282; 92790; 92329; 91902; 91508; 91149; 90824;
  90532; 90275; 90052; 89862; 89707; 89585; 89497; 89442; 89419; 89424; 89455; 89510; 89585; 89679;
  89789; 89911; 90044; 90185; 90335; 90493; 90661; 90838; 91025; 91222; 91430; 91649; 91879; 92121;
  92374; 92636; 92907; 93185; 93470; 93759; 94053; 94350; 94649; 94949; 95249; 95548; 95846; 96143;
  96438; 96729; 97017; 97302; 97581; 97855; 98125; 98392; 98656; 98917; 99178; 99439; 99700; 99963;
  100230; 100500; 100770; 101050; 101340; 101640; 101950; 102280; 102620; 102980; 103360; 103760;
  104180; 104620; 105070; 105530; 105990; 106470; 106940; 107420; 107890; 108360; 108820; 109280;
  109730; 110190; 110640; 111090; 111550; 112000; 112460; 112920; 113390; 113860; 114350; 114840;
  115350; 115880; 116420; 116980; 117570; 118180; 118820; 119480; 120170; 120900; 121660; 122460;
  123290; 124170; 125090; 125350; 126070; 126790; 127520; 128250; 128980; 129720; 130460; 131200;
  131950; 132700; 133450; 134210; 134970; 135740; 136510; 137280; 138060; 138840; 139620; 140410;
  141200; 141990; 142790; 143590; 144400; 145210; 146020; 146840; 147660; 148490; 149320; 150150;
  150980; 151820; 152670; 153520; 154370; 155220; 156080; 156950; 157810; 158680; 159560; 160440;
  161320; 162210; 163100; 163990].

(** hpp:4133-4173 *)
Definition T_CES50 : list dec := table (-6) [
  78830; 79503; 80181; 80865; 81553; 82247; 82947; 83652; 84362; 85077; 85799; 86525; 87258; 87996;
  88739; 89488; 90243; 91004; 91770; 92542; 93385; 94134; 94898; 95675; 96464; 97266; 98079; 98902;
  99734; 100570; 101420; 102280; 103140; 104010; 104880; 105750; 106630; 107510; 108390; 109280;
  110160; 111040; 111920; 112800; 113690; 114580; 115480; 116390; 117310; 118240; 119190; 120150;
  121130; 122120; 123120; 124130; 125150; 126180; 127220; 128260; 129310; 130360; 131420; 132490;
  133570; 134670; 135780; 136920; 138090; 139290; 140520; 141790; 143090; 144420; 145770; 147140;
  148530; 149920; 151320; 152720; 154120; 155510; 156900; 158300; 159730; 161180; 162680; 164230;
  165850; 167530; 169300; 171170; 173150; 175260; 177540; 180000; 182660; 185550; 188690; 192100;
  195800; 199810; 204100; 208640; 213390; 218320; 223410; 228600; 233870; 239190; 244530; 249840;
  255100; 260260; 265310; 270190; 274890; 279360; 283570; 287480; 291070; 294310; 297200; 299790;
  302090; 304120; 305920; 307500; 308900; 310130; 311220; 312190; 313030; 313750; 314330; 314770;
  315050; 315170; 315120; 314900; 314490; 313900; 313120; 312170; 311060; 309790; 308380; 306840;
  305170; 303380; 301490; 299500; 297410; 295210; 292900; 290470; 287920; 285240; 282430; 279480;
  276380; 273150; 269770; 266280; 262670; 258960; 255170; 251300; 247370; 243390; 239370; 235320;
  231280; 227250; 223260; 219330; 215490; 211750; 208130; 204660; 201360; 198240; 195300; 192530;
  189900; 187420; 185060; 182820; 180680; 178620; 176650; 174740; 172890; 171120; 169420; 167800;
  166270; 164830; 163480; 162220; 161070; 160020; 159070; 158210; 157440; 156760; 156160; 155620;
  155160; 154760; 154420; 154130; 153880; 153660; 153460; 153280; 153100; 152920; 152720; 152490;
  152230; 151930; 151590; 151220; 150820; 150400; 149970; 149540; 149100; 148680; 148260; 147870;
  147500; 147170; 146870; 146620; 146410; 146260; 146160; 146140; 146180; 146300; 146490; 146750;
  147070; 147450; 147880; 148360; 148890; 149450; 150050; 150680; 151350; 152050; 152790; 153580;
  154410; 155300; 156240; 157230; 158290; 159410; 160580; 161800; 163070; 164360; 165690; 167030;
  168380; 169740; 171090; 172430; 173740; 175020; 176260; 177430; 178530; 179550; 180480; 181300;
  182010; 182590; 183040; 183400; 183650; 183810; 183890; 183890; 183840; 183740; 183590; 183420;
  183210; 182970; 182700; 182400; 182070; 181720; 181350; 180940; 180520; 180070; 179600; 179100;
  178570; 178030; 177450; 176850; 176210; 175550; 174860; 174140; 173390; 172600; 171780; 170930;
  170040; 169120; 168160; 167160; 166130; 165900; 165110; 164340; 163560; 162790; 162010; 161250;
  160480; 159720; 158960; 158210; 157450; 156700; 155960; 155210; 154470; 153730; 153000; 152260;
  151540; 150810; 150080; 149360; 148650; 147930; 147220; 146510; 145800; 145100; 144400; 143700;
  143000; 142310; 141620; 140930; 140250; 139570; 138890; 138210; 137540; 136870; 136200; 135530;
  134870; 134210; 133560; 132900; 132250; 131600; 130960; 130310; 129670; 129030; 128400; 127770;
  127140; 126510; 125880; 125260; 124640; 124030; 123410; 122800; 122190; 121590; 120980; 120380;
  119780; 119190; 118590; 118000; 117410; 116830; 116250; 115660; 115090; 114510; 113940; 113370].

(** hpp:4174-4214 *)
Definition T_CES51 : list dec := table (-6) [
  99501; 100400; 101300; 102210; 103130; 104060; 104990; 105930; 106880; 107840; 108800; 109770;
  110750; 111740; 112730; 113730; 114740; 115760; 116780; 117810; 118890; 119920; 120960; 122010;
  123080; 124160; 125250; 126350; 127460; 128580; 129710; 130840; 131980; 133130; 134280; 135430;
  136580; 137740; 138900; 140060; 141220; 142380; 143530; 144690; 145860; 147030; 148200; 149390;
  150590; 151800; 153030; 154270; 155530; 156800; 158080; 159370; 160660; 161960; 163250; 164540;
  165830; 167110; 168390; 169670; 170960; 172260; 173580; 174920; 176290; 177690; 179130; 180610;
  182120; 183660; 185220; 186800; 188390; 189980; 191570; 193150; 194710; 196250; 197780; 199320;
  200870; 202440; 204060; 205730; 207460; 209280; 211180; 213190; 215340; 217640; 220130; 222830;
  225780; 229000; 232520; 236360; 240560; 245130; 250040; 255250; 260720; 266400; 272260; 278260;
  284340; 290480; 296630; 302740; 308780; 314690; 320440; 325970; 331240; 336210; 340830; 345050;
  348830; 352140; 354990; 357430; 359490; 361190; 362590; 363700; 364570; 365220; 365700; 366030;
  366210; 366250; 366130; 365860; 365420; 364830; 364060; 363130; 362030; 360750; 359300; 357690;
  355920; 354010; 351950; 349770; 347450; 345020; 342480; 339830; 337060; 334180; 331160; 328000;
  324700; 321240; 317610; 313810; 309830; 305660; 301310; 296810; 292180; 287420; 282570; 277630;
  272620; 267570; 262490; 257400; 252330; 247320; 242390; 237570; 232910; 228420; 224140; 220100;
  216340; 212880; 209700; 206790; 204120; 201670; 199430; 197380; 195490; 193750; 192130; 190620;
  189220; 187940; 186780; 185750; 184860; 184120; 183520; 183080; 182800; 182690; 182730; 182930;
  183270; 183730; 184320; 185010; 185810; 186700; 187660; 188700; 189780; 190880; 191970; 193040;
  194040; 194970; 195780; 196470; 196990; 197340; 197520; 197550; 197460; 197250; 196950; 196580;
  196150; 195690; 195210; 194720; 194250; 193800; 193390; 193020; 192720; 192480; 192330; 192280;
  192330; 192490; 192770; 193150; 193620; 194180; 194810; 195500; 196250; 197050; 197880; 198750;
  199650; 200600; 201590; 202640; 203750; 204920; 206160; 207490; 208900; 210400; 211980; 213630;
  215330; 217090; 218880; 220690; 222520; 224350; 226170; 227970; 229730; 231450; 233090; 234650;
  236120; 237470; 238680; 239750; 240660; 241390; 241960; 242370; 242650; 242810; 242860; 242810;
  242680; 242490; 242240; 241960; 241630; 241270; 240870; 240440; 239980; 239470; 238940; 238380;
  237780; 237150; 236490; 235800; 235080; 234320; 233520; 232680; 231810; 230890; 229940; 228940;
  227900; 226810; 225680; 224500; 223270; 221990; 220650; 219270; 217830; 217520; 216430; 215350;
  214270; 213200; 212130; 211070; 210000; 208950; 207890; 206840; 205800; 204750; 203720; 202680;
  201650; 200630; 199600; 198580; 197570; 196560; 195550; 194550; 193550; 192560; 191560; 190580;
  189590; 188610; 187640; 186670; 185700; 184740; 183780; 182820; 181870; 180920; 179970; 179030;
  178100; 177160; 176230; 175310; 174390; 173470; 172550; 171640; 170740; 169840; 168940; 168040;
  167150; 166260; 165380; 164500; 163620; 162750; 161880; 161020; 160160; 159300; 158450; 157600;
  156750; 155910; 155070; 154230; 153400; 152580; 151750; 150930; 150110; 149300; 148490; 147690;
  146880; 146080; 145290; 144500].

(** hpp:4215-4255 *)
Definition T_CES52 : list dec := table (-6) [
  58595; 58559; 58524; 58488; 58453; 58417; 58382; 58346; 58311; 58275; 58240; 58205; 58169; 58134;
  58098; 58063; 58028; 57993; 57957; 57922; 58015; 57923; 57840; 57767; 57703; 57649; 57603; 57565;
  57536; 57514; 57500; 57493; 57493; 57500; 57513; 57532; 57556; 57587; 57622; 57662; 57706; 57755;
  57809; 57869; 57936; 58010; 58094; 58186; 58289; 58404; 58531; 58670; 58823; 58991; 59172; 59369;
  59581; 59809; 60053; 60313; 60592; 60888; 61203; 61541; 61904; 62293; 62710; 63159; 63641; 64158;
  64713; 65306; 65927; 66563; 67205; 67839; 68453; 69037; 69578; 70064; 70484; 70830; 71114; 71351;
  71559; 71751; 71946; 72158; 72404; 72699; 73060; 73506; 74068; 74780; 75677; 76793; 78163; 79821;
  81802; 84139; 86868; 90011; 93537; 97405; 101570; 106000; 110650; 115470; 120420; 125470; 130560;
  135670; 140760; 145810; 150800; 155710; 160510; 165180; 169690; 174030; 178170; 182090; 185790;
  189300; 192610; 195750; 198710; 201510; 204170; 206690; 209080; 211350; 213470; 215390; 217090;
  218530; 219670; 220480; 220910; 220940; 220520; 219630; 218300; 216570; 214470; 212040; 209320;
  206350; 203160; 199800; 196300; 192710; 189030; 185290; 181510; 177700; 173900; 170100; 166340;
  162640; 159000; 155450; 151990; 148590; 145270; 142000; 138780; 135600; 132460; 129340; 126230;
  123140; 120070; 117040; 114070; 111150; 108320; 105590; 102960; 100460; 98101; 95888; 93821;
  91891; 90089; 88407; 86837; 85371; 84000; 82716; 81510; 80376; 79310; 78309; 77372; 76497; 75680;
  74920; 74214; 73561; 72957; 72401; 71892; 71428; 71008; 70631; 70295; 70001; 69746; 69530; 69350;
  69207; 69095; 69011; 68950; 68909; 68882; 68865; 68855; 68846; 68835; 68819; 68797; 68772; 68745;
  68717; 68691; 68667; 68648; 68635; 68629; 68632; 68643; 68662; 68687; 68719; 68755; 68796; 68841;
  68889; 68938; 68990; 69043; 69100; 69160; 69226; 69297; 69376; 69461; 69556; 69660; 69774; 69903;
  70048; 70214; 70403; 70620; 70867; 71147; 71465; 71824; 72224; 72665; 73140; 73646; 74178; 74732;
  75303; 75888; 76481; 77079; 77677; 78269; 78852; 79419; 79967; 80490; 80983; 81440; 81858; 82231;
  82556; 82834; 83068; 83263; 83421; 83546; 83640; 83708; 83753; 83777; 83784; 83774; 83747; 83702;
  83640; 83560; 83461; 83345; 83210; 83056; 82883; 82691; 82480; 82251; 82002; 81735; 81449; 81145;
  80821; 80480; 80119; 79740; 79343; 78927; 78493; 78041; 77570; 77081; 76574; 76049; 75958; 75567;
  75178; 74791; 74405; 74022; 73640; 73260; 72882; 72505; 72131; 71758; 71387; 71018; 70650; 70285;
  69921; 69558; 69198; 68839; 68482; 68127; 67773; 67421; 67071; 66722; 66376; 66030; 65687; 65345;
  65005; 64666; 64330; 63994; 63661; 63329; 62998; 62670; 62342; 62017; 61693; 61370; 61049; 60730;
  60413; 60096; 59782; 59469; 59157; 58847; 58539; 58232; 57926; 57622; 57320; 57019; 56720; 56422;
  56125; 55830; 55536; 55244; 54954; 54664; 54377; 54090; 53805; 53522; 53240; 52959; 52679; 52402;
  52125; 51850; 51576; 51304; 51032; 50763; 50494].

(** hpp:4256-4296 *)
Definition T_CES53 : list dec := table (-6) [
  72779; 73026; 73273; 73521; 73770; 74019; 74270; 74521; 74773; 75025; 75279; 75533; 75788; 76044;
  76300; 76558; 76816; 77075; 77335; 77595; 77900; 78095; 78340; 78628; 78951; 79302; 79672; 80055;
  80442; 80826; 81200; 81558; 81903; 82239; 82573; 82909; 83252; 83608; 83981; 84377; 84800; 85255;
  85740; 86255; 86796; 87362; 87951; 88562; 89191; 89838; 90500; 91176; 91866; 92572; 93293; 94031;
  94786; 95560; 96353; 97166; 98000; 98857; 99741; 100660; 101620; 102630; 103690; 104810; 106000;
  107260; 108600; 110030; 111540; 113130; 114820; 116580; 118440; 120370; 122400; 124510; 126700;
  128980; 131350; 133800; 136350; 139000; 141750; 144600; 147560; 150620; 153800; 157090; 160500;
  164040; 167710; 171520; 175470; 179570; 183820; 188230; 192800; 197540; 202460; 207540; 212800;
  218220; 223820; 229580; 235520; 241620; 247900; 254340; 260910; 267580; 274300; 281050; 287770;
  294430; 301000; 307440; 313700; 319750; 325560; 331080; 336280; 341110; 345540; 349530; 353050;
  356050; 358500; 360370; 361670; 362440; 362710; 362510; 361860; 360790; 359340; 357530; 355400;
  352970; 350250; 347270; 344040; 340580; 336890; 333010; 328940; 324700; 320300; 315760; 311100;
  306320; 301440; 296460; 291400; 286280; 281090; 275860; 270600; 265310; 260010; 254710; 249410;
  244120; 238850; 233620; 228430; 223280; 218200; 213180; 208240; 203370; 198580; 193870; 189250;
  184710; 180280; 175940; 171700; 167570; 163540; 159600; 155770; 152040; 148390; 144840; 141370;
  138000; 134700; 131490; 128350; 125290; 122310; 119400; 116570; 113800; 111100; 108470; 105900;
  103390; 100950; 98578; 96269; 94028; 91858; 89758; 87731; 85778; 83900; 82099; 80376; 78729;
  77161; 75671; 74259; 72926; 71671; 70496; 69400; 68383; 67442; 66574; 65774; 65038; 64364; 63746;
  63182; 62668; 62200; 61774; 61388; 61038; 60723; 60439; 60184; 59955; 59750; 59566; 59400; 59250;
  59114; 58992; 58881; 58781; 58691; 58609; 58534; 58465; 58400; 58339; 58281; 58226; 58173; 58123;
  58075; 58029; 57985; 57942; 57900; 57860; 57822; 57791; 57766; 57752; 57749; 57760; 57787; 57833;
  57900; 57989; 58099; 58230; 58379; 58546; 58729; 58928; 59140; 59364; 59600; 59846; 60101; 60367;
  60642; 60927; 61222; 61527; 61841; 62166; 62500; 62844; 63195; 63554; 63917; 64283; 64650; 65017;
  65382; 65744; 66100; 66450; 66793; 67133; 67470; 67804; 68139; 68474; 68812; 69154; 69500; 69852;
  70204; 70552; 70890; 71212; 71514; 71789; 72032; 72237; 72400; 72663; 72887; 73112; 73338; 73564;
  73791; 74018; 74246; 74475; 74705; 74935; 75165; 75397; 75629; 75862; 76095; 76329; 76564; 76799;
  77035; 77272; 77509; 77747; 77986; 78225; 78465; 78706; 78947; 79189; 79432; 79675; 79919; 80164;
  80409; 80656; 80902; 81150; 81398; 81647; 81897; 82147; 82398; 82649; 82902; 83155; 83409; 83663;
  83918; 84174; 84431; 84688; 84946; 85205; 85464; 85724; 85985; 86247; 86509; 86772; 87036; 87300;
  87566; 87832; 88098; 88366; 88634; 88903; 89172; 89443; 89714; 89986; 90258; 90531; 90805; 91080;
  91356; 91632; 91909; 92187].

(** hpp:4297-4337 *)
Definition T_CES54 : list dec := table (-6) [
  408570; 411660; 414750; 417860; 420960; 424080; 427200; 430320; 433450; 436590; 439730; 442880;
  446030; 449180; 452340; 455510; 458670; 461840; 465020; 468190; 471900; 474260; 477220; 480700;
  484600; 488830; 493290; 497890; 502540; 507140; 511600; 515850; 519890; 523770; 527510; 531140;
  534690; 538200; 541700; 545230; 548800; 552450; 556170; 559930; 563730; 567540; 571350; 575130;
  578880; 582580; 586200; 589740; 593200; 596610; 599980; 603330; 606680; 610040; 613440; 616890;
  620400; 623990; 627670; 631410; 635210; 639070; 642970; 646910; 650890; 654890; 658900; 662920;
  666940; 670960; 674950; 678910; 682840; 686720; 690550; 694310; 698000; 701610; 705140; 708580;
  711950; 715230; 718440; 721570; 724620; 727600; 730500; 733320; 736070; 738730; 741310; 743790;
  746180; 748470; 750660; 752730; 754700; 756550; 758290; 759920; 761440; 762850; 764160; 765360;
  766470; 767480; 768400; 769220; 769960; 770610; 771180; 771660; 772070; 772410; 772670; 772870;
  773000; 773070; 773090; 773060; 772990; 772890; 772770; 772630; 772480; 772340; 772200; 772080;
  771960; 771850; 771750; 771640; 771520; 771400; 771250; 771090; 770900; 770680; 770430; 770150;
  769840; 769500; 769130; 768720; 768280; 767810; 767300; 766760; 766180; 765560; 764910; 764210;
  763460; 762670; 761830; 760940; 760000; 759000; 757950; 756830; 755640; 754370; 753030; 751610;
  750100; 748500; 746800; 745000; 743110; 741120; 739060; 736910; 734690; 732410; 730060; 727650;
  725200; 722700; 720160; 717570; 714930; 712260; 709530; 706770; 703960; 701100; 698200; 695250;
  692250; 689180; 686030; 682800; 679460; 676020; 672450; 668750; 664900; 660900; 656750; 652440;
  647970; 643360; 638590; 633670; 628600; 623370; 618000; 612480; 606850; 601130; 595370; 589590;
  583830; 578130; 572520; 567030; 561700; 556560; 551610; 546870; 542330; 538020; 533920; 530060;
  526430; 523040; 519900; 517010; 514360; 511950; 509770; 507800; 506040; 504480; 503110; 501920;
  500900; 500040; 499330; 498760; 498310; 497980; 497750; 497610; 497540; 497550; 497600; 497700;
  497830; 497990; 498180; 498390; 498610; 498830; 499060; 499290; 499500; 499700; 499900; 500120;
  500360; 500650; 500990; 501400; 501890; 502490; 503200; 504040; 505000; 506110; 507350; 508740;
  510280; 511970; 513820; 515830; 518000; 520340; 522830; 525460; 528200; 531040; 533960; 536950;
  539980; 543030; 546100; 549160; 552210; 555240; 558240; 561220; 564160; 567070; 569930; 572740;
  575500; 578200; 580850; 583470; 586050; 588620; 591170; 593730; 596300; 598880; 601500; 604150;
  606800; 609410; 611940; 614350; 616600; 618650; 620460; 621990; 623200; 625130; 626770; 628420;
  630050; 631690; 633320; 634950; 636570; 638200; 639820; 641430; 643050; 644660; 646260; 647870;
  649470; 651060; 652660; 654250; 655830; 657410; 658990; 660570; 662140; 663710; 665280; 666840;
  668400; 669950; 671500; 673050; 674590; 676130; 677660; 679200; 680720; 682250; 683770; 685280;
  686800; 688300; 689810; 691310; 692800; 694300; 695780; 697270; 698750; 700220; 701700; 703160;
  704630; 706090; 707540; 708990; 710440; 711880; 713320; 714750; 716180; 717600; 719020; 720440;
  721850; 723260; 724660; 726060; 727460; 728850; 730230; 731610; 732990; 734360; 735730; 737090;
  738450; 739800; 741150; 742490].

(** hpp:4338-4378 *)
Definition T_CES55 : list dec := table (-6) [
  300730; 306210; 311520; 316680; 321710; 326610; 331420; 336140; 340780; 345370; 349920; 354440;
  358940; 363420; 367870; 372300; 376710; 381100; 385480; 389830; 394160; 398470; 402770; 407050;
  411300; 415530; 419740; 423930; 428080; 432220; 436320; 440400; 444450; 448480; 452510; 456520;
  460530; 464550; 468580; 472620; 476680; 480770; 484870; 488990; 493120; 497250; 501380; 505500;
  509600; 513690; 517750; 521780; 525790; 529780; 533760; 537740; 541730; 545730; 549750; 553800;
  557890; 562020; 566190; 570410; 574670; 578980; 583340; 587740; 592200; 596700; 601250; 605850;
  610490; 615170; 619860; 624580; 629290; 634010; 638710; 643390; 648040; 652650; 657210; 661710;
  666140; 670490; 674750; 678910; 682950; 686870; 690660; 694310; 697810; 701180; 704420; 707540;
  710520; 713390; 716150; 718790; 721320; 723750; 726080; 728300; 730430; 732460; 734380; 736220;
  737960; 739600; 741150; 742610; 743980; 745250; 746430; 747520; 748510; 749400; 750200; 750900;
  751510; 752020; 752430; 752750; 752980; 753120; 753180; 753150; 753040; 752850; 752590; 752250;
  751840; 751350; 750770; 750100; 749350; 748500; 747560; 746520; 745370; 744120; 742760; 741300;
  739750; 738100; 736360; 734530; 732610; 730610; 728530; 726370; 724130; 721810; 719390; 716890;
  714280; 711580; 708780; 705860; 702840; 699700; 696450; 693100; 689640; 686080; 682430; 678680;
  674850; 670940; 666940; 662870; 658740; 654550; 650330; 646070; 641800; 637530; 633260; 629020;
  624800; 620630; 616500; 612420; 608400; 604440; 600530; 596700; 592930; 589240; 585620; 582080;
  578620; 575210; 571860; 568560; 565300; 562060; 558840; 555630; 552420; 549200; 545970; 542720;
  539440; 536110; 532750; 529320; 525840; 522280; 518650; 514940; 511170; 507360; 503550; 499750;
  496000; 492320; 488740; 485280; 481960; 478810; 475840; 473030; 470390; 467910; 465590; 463430;
  461430; 459580; 457880; 456330; 454920; 453640; 452490; 451460; 450550; 449750; 449050; 448440;
  447920; 447480; 447120; 446830; 446610; 446440; 446330; 446270; 446250; 446260; 446310; 446380;
  446490; 446620; 446780; 446990; 447230; 447510; 447830; 448200; 448620; 449090; 449620; 450210;
  450870; 451600; 452410; 453300; 454290; 455370; 456560; 457850; 459240; 460730; 462300; 463960;
  465680; 467480; 469330; 471240; 473190; 475180; 477210; 479260; 481330; 483410; 485500; 487580;
  489660; 491720; 493760; 495770; 497750; 499700; 501610; 503470; 505300; 507080; 508810; 510490;
  512120; 513690; 515200; 516640; 518010; 519310; 520530; 521660; 522700; 523650; 524500; 525250;
  525900; 526460; 526940; 527350; 527690; 527970; 528200; 528390; 528540; 528660; 528760; 528840;
  528920; 528990; 529060; 529150; 529250; 529380; 529540; 529740; 529980; 530280; 530650; 531090;
  531620; 532250; 532970; 533820; 534780; 535880; 537100; 538470; 539960; 541580; 543340; 545230;
  547250; 549400; 551680; 554100; 556660; 559400; 562330; 565480; 568860; 572490; 576400; 580610;
  585140; 589980; 595050; 600230; 605400; 610450; 615270; 619740; 623740; 627170; 629910; 631880;
  633140; 633790; 633940; 633690; 633140; 632380; 631520; 630670; 629910; 629340; 628940; 628710;
  628620; 628650; 628780; 628990; 629260; 629580; 629910; 630240; 630560; 630830; 631040; 631170;
  631200; 631110; 630880; 630480].

(** hpp:4379-4419 *)
Definition T_CES56 : list dec := table (-6) [
  155210; 158450; 161750; 165110; 168520; 171990; 175510; 179090; 182730; 186430; 190180; 193990;
  197850; 201780; 205760; 209800; 213900; 218060; 222270; 226550; 231500; 234890; 239110; 243980;
  249350; 255030; 260840; 266620; 272190; 277380; 282010; 285950; 289250; 291990; 294260; 296160;
  297760; 299150; 300420; 301670; 302970; 304400; 305960; 307640; 309420; 311300; 313250; 315270;
  317340; 319450; 321580; 323730; 325890; 328080; 330290; 332530; 334810; 337130; 339490; 341900;
  344370; 346900; 349510; 352230; 355080; 358080; 361250; 364610; 368200; 372030; 376120; 380490;
  385120; 389990; 395070; 400320; 405730; 411260; 416900; 422610; 428360; 434140; 439980; 445910;
  451950; 458150; 464530; 471140; 478000; 485150; 492620; 500430; 508530; 516870; 525380; 533990;
  542660; 551310; 559890; 568330; 576580; 584580; 592300; 599740; 606870; 613680; 620160; 626290;
  632060; 637450; 642440; 647030; 651210; 654990; 658380; 661370; 663980; 666200; 668050; 669530;
  670630; 671370; 671770; 671840; 671590; 671060; 670240; 669180; 667870; 666340; 664610; 662690;
  660600; 658330; 655900; 653320; 650590; 647720; 644720; 641600; 638360; 635010; 631550; 627980;
  624300; 620520; 616620; 612610; 608500; 604270; 599940; 595500; 590940; 586280; 581510; 576640;
  571660; 566580; 561390; 556100; 550710; 545220; 539640; 533970; 528230; 522410; 516540; 510610;
  504640; 498630; 492590; 486530; 480450; 474360; 468270; 462180; 456090; 450020; 443960; 437920;
  431910; 425930; 419980; 414070; 408170; 402310; 396460; 390640; 384840; 379050; 373280; 367520;
  361780; 356050; 350340; 344650; 338980; 333330; 327700; 322090; 316510; 310950; 305420; 299930;
  294470; 289040; 283660; 278330; 273040; 267810; 262630; 257510; 252460; 247500; 242630; 237870;
  233220; 228710; 224340; 220130; 216090; 212230; 208540; 205030; 201710; 198560; 195590; 192790;
  190180; 187740; 185470; 183380; 181450; 179670; 178040; 176530; 175140; 173860; 172670; 171570;
  170540; 169570; 168660; 167800; 166990; 166210; 165480; 164780; 164100; 163450; 162810; 162190;
  161580; 160980; 160390; 159810; 159240; 158680; 158130; 157580; 157040; 156510; 155990; 155480;
  155000; 154550; 154140; 153760; 153440; 153160; 152950; 152800; 152720; 152700; 152750; 152860;
  153040; 153290; 153600; 153980; 154430; 154950; 155530; 156190; 156920; 157720; 158610; 159570;
  160610; 161740; 162950; 164250; 165610; 167030; 168480; 169940; 171410; 172850; 174250; 175600;
  176870; 178050; 179160; 180210; 181200; 182160; 183110; 184050; 185000; 185970; 186990; 188060;
  189160; 190270; 191360; 192430; 193440; 194370; 195200; 195910; 196470; 197370; 198130; 198910;
  199680; 200450; 201230; 202010; 202790; 203570; 204360; 205150; 205940; 206730; 207530; 208330;
  209120; 209930; 210730; 211540; 212350; 213160; 213970; 214790; 215600; 216420; 217250; 218070;
  218900; 219730; 220560; 221390; 222230; 223060; 223900; 224750; 225590; 226440; 227290; 228140;
  228990; 229850; 230710; 231570; 232430; 233300; 234160; 235030; 235900; 236780; 237650; 238530;
  239410; 240290; 241180; 242070; 242960; 243850; 244740; 245640; 246540; 247440; 248340; 249240;
  250150; 251060; 251970; 252890; 253800; 254720; 255640; 256560; 257490; 258410; 259340; 260270;
  261210; 262140; 263080; 264020].

(** hpp:4420-4460 *)
Definition T_CES57 : list dec := table (-6) [
  134700; 134750; 134820; 134880; 134930; 134970; 134990; 134980; 134930; 134840; 134700; 134510;
  134280; 134050; 133850; 133700; 133630; 133670; 133840; 134170; 134700; 135430; 136350; 137410;
  138590; 139840; 141130; 142430; 143700; 144900; 146000; 146970; 147840; 148610; 149320; 149990;
  150650; 151310; 152010; 152760; 153600; 154540; 155580; 156730; 157990; 159340; 160810; 162370;
  164050; 165820; 167700; 169680; 171760; 173940; 176210; 178570; 181020; 183550; 186160; 188840;
  191600; 194430; 197330; 200320; 203380; 206540; 209790; 213130; 216580; 220130; 223800; 227580;
  231490; 235510; 239660; 243940; 248360; 252910; 257590; 262420; 267400; 272520; 277780; 283170;
  288660; 294270; 299960; 305730; 311570; 317460; 323400; 329370; 335360; 341370; 347370; 353360;
  359320; 365250; 371130; 376950; 382700; 388370; 393930; 399380; 404680; 409830; 414800; 419570;
  424120; 428440; 432500; 436290; 439800; 443040; 446010; 448700; 451110; 453250; 455110; 456690;
  458000; 459030; 459800; 460300; 460550; 460550; 460310; 459840; 459140; 458230; 457100; 455770;
  454250; 452540; 450660; 448610; 446400; 444050; 441560; 438940; 436200; 433350; 430390; 427330;
  424150; 420880; 417500; 414020; 410450; 406770; 403000; 399130; 395170; 391100; 386920; 382640;
  378240; 373720; 369070; 364300; 359400; 354370; 349210; 343940; 338580; 333130; 327610; 322040;
  316420; 310770; 305100; 299420; 293760; 288110; 282500; 276940; 271430; 266000; 260660; 255420;
  250300; 245300; 240430; 235670; 231040; 226510; 222100; 217800; 213600; 209500; 205500; 201590;
  197770; 194030; 190350; 186740; 183190; 179690; 176230; 172800; 169400; 166020; 162640; 159270;
  155880; 152470; 149030; 145540; 141990; 138380; 134700; 130940; 127120; 123290; 119480; 115720;
  112060; 108520; 105140; 101950; 99000; 96307; 93865; 91661; 89678; 87903; 86319; 84911; 83666;
  82567; 81600; 80750; 80004; 79350; 78775; 78267; 77814; 77403; 77022; 76659; 76300; 75937; 75569;
  75202; 74837; 74478; 74129; 73794; 73475; 73176; 72900; 72649; 72416; 72192; 71967; 71733; 71480;
  71199; 70882; 70518; 70100; 69618; 69065; 68435; 67721; 66916; 66014; 65008; 63892; 62658; 61300;
  59817; 58226; 56551; 54814; 53040; 51250; 49468; 47717; 46020; 44400; 42877; 41455; 40136; 38922;
  37813; 36811; 35917; 35133; 34461; 33900; 33452; 33109; 32864; 32708; 32634; 32633; 32697; 32818;
  32989; 33200; 33455; 33799; 34288; 34979; 35927; 37189; 38821; 40880; 43421; 46500; 50142; 54238;
  58649; 63236; 67858; 72375; 76648; 80536; 83900; 86600; 88536; 89770; 90404; 90539; 90279; 89724;
  88977; 88139; 87313; 86600; 86081; 85751; 85581; 85544; 85614; 85763; 85963; 86188; 86409; 86600;
  86739; 86828; 86873; 86883; 86864; 86824; 86771; 86710; 86651; 86600; 86563; 86539; 86527; 86524;
  86529; 86540; 86554; 86570; 86586; 86600; 86610; 86616; 86620; 86620; 86619; 86616; 86612; 86608;
  86604; 86600; 86597; 86596; 86595; 86594; 86595; 86596; 86597; 86598; 86599; 86600; 86601; 86601;
  86602; 86602; 86602; 86602; 86601; 86601; 86600; 86600; 86600; 86599; 86599; 86598; 86598; 86598;
  86598; 86599; 86599].

(** hpp:4461-4501 *)
Definition T_CES58 : list dec := table (-6) [
  106060; 106870; 107700; 108560; 109440; 110350; 111280; 112220; 113180; 114150; 115140; 116140;
  117150; 118160; 119180; 120200; 121230; 122250; 123280; 124300; 125310; 126320; 127320; 128320;
  129320; 130330; 131340; 132360; 133390; 134440; 135500; 136580; 137690; 138810; 139960; 141140;
  142340; 143580; 144840; 146140; 147470; 148840; 150240; 151670; 153140; 154640; 156170; 157740;
  159330; 160940; 162590; 164260; 165960; 167700; 169470; 171280; 173130; 175030; 176980; 178980;
  181030; 183140; 185330; 187590; 189950; 192420; 195000; 197710; 200560; 203560; 206730; 210070;
  213580; 217270; 221140; 225180; 229400; 233800; 238370; 243120; 248040; 253140; 258390; 263780;
  269280; 274860; 280520; 286220; 291950; 297680; 303390; 309060; 314680; 320250; 325740; 331160;
  336500; 341740; 346880; 351900; 356810; 361590; 366210; 370670; 374940; 379010; 382850; 386440;
  389780; 392820; 395570; 398000; 400120; 401930; 403450; 404680; 405640; 406330; 406770; 406950;
  406900; 406620; 406120; 405410; 404500; 403410; 402150; 400730; 399160; 397450; 395620; 393670;
  391610; 389450; 387180; 384830; 382380; 379850; 377230; 374550; 371790; 368970; 366080; 363140;
  360130; 357070; 353950; 350770; 347540; 344270; 340940; 337570; 334140; 330670; 327150; 323570;
  319950; 316270; 312530; 308750; 304900; 301000; 297040; 293030; 288980; 284880; 280730; 276550;
  272330; 268080; 263800; 259490; 255170; 250830; 246490; 242150; 237820; 233510; 229230; 224980;
  220770; 216610; 212490; 208410; 204350; 200330; 196330; 192340; 188360; 184390; 180410; 176430;
  172440; 168460; 164480; 160510; 156550; 152610; 148680; 144780; 140910; 137070; 133260; 129490;
  125770; 122090; 118480; 114910; 111420; 107990; 104630; 101350; 98155; 95050; 92042; 89137; 86342;
  83663; 81107; 78681; 76390; 74240; 72227; 70346; 68593; 66963; 65451; 64051; 62759; 61571; 60480;
  59483; 58573; 57747; 56998; 56322; 55713; 55167; 54678; 54240; 53850; 53502; 53192; 52917; 52674;
  52459; 52270; 52103; 51954; 51821; 51700; 51588; 51485; 51390; 51303; 51224; 51153; 51089; 51032;
  50983; 50940; 50904; 50878; 50865; 50868; 50889; 50933; 51001; 51099; 51227; 51390; 51590; 51827;
  52100; 52410; 52755; 53134; 53548; 53996; 54477; 54990; 55535; 56112; 56718; 57353; 58016; 58706;
  59421; 60161; 60924; 61710; 62517; 63342; 64181; 65033; 65892; 66757; 67623; 68488; 69348; 70200;
  71041; 71871; 72689; 73495; 74288; 75069; 75837; 76591; 77332; 78060; 78773; 79468; 80143; 80792;
  81412; 82001; 82554; 83067; 83537; 83960; 84334; 84657; 84932; 85159; 85337; 85469; 85555; 85594;
  85589; 85540; 85448; 85318; 85156; 84969; 84760; 84538; 84307; 84073; 83842; 83620; 83413; 83226;
  83066; 82937; 82847; 82801; 82804; 82863; 82983; 83170; 82468; 82356; 82245; 82134; 82023; 81912;
  81801; 81691; 81580; 81470; 81360; 81250; 81140; 81030; 80920; 80811; 80701; 80592; 80483; 80374;
  80265; 80156; 80048; 79939; 79831; 79723; 79615; 79507; 79399; 79291; 79184; 79076; 78969; 78862;
  78755; 78648; 78542; 78435; 78329; 78222; 78116; 78010; 77904; 77798; 77693; 77587; 77482; 77376;
  77271].

(** hpp:4502-4542 *)
Definition T_CES59 : list dec := table (-6) [
  184710; 194010; 203670; 213670; 224030; 234740; 245800; 257210; 268960; 281040; 293450; 306170;
  319190; 332500; 346090; 359930; 374010; 388300; 402790; 417450; 434500; 445880; 460060; 476460;
  494490; 513570; 533110; 552530; 571240; 588660; 604200; 617420; 628410; 637410; 644660; 650380;
  654830; 658230; 660810; 662830; 664500; 666030; 667460; 668790; 670030; 671170; 672230; 673190;
  674080; 674880; 675600; 676250; 676830; 677360; 677850; 678300; 678740; 679170; 679590; 680040;
  680500; 681000; 681530; 682100; 682690; 683320; 683980; 684670; 685390; 686130; 686900; 687700;
  688520; 689380; 690270; 691190; 692160; 693170; 694230; 695340; 696500; 697720; 699000; 700350;
  701790; 703320; 704940; 706670; 708520; 710490; 712600; 714840; 717230; 719740; 722370; 725130;
  728000; 730970; 734050; 737230; 740500; 743850; 747290; 750790; 754350; 757960; 761620; 765310;
  769020; 772760; 776500; 780240; 783960; 787630; 791230; 794730; 798120; 801360; 804440; 807330;
  810000; 812440; 814640; 816620; 818370; 819900; 821220; 822320; 823210; 823910; 824400; 824700;
  824810; 824740; 824490; 824070; 823490; 822740; 821840; 820790; 819600; 818270; 816800; 815200;
  813470; 811600; 809600; 807470; 805210; 802820; 800300; 797660; 794890; 792010; 789020; 785910;
  782700; 779390; 775990; 772490; 768900; 765230; 761470; 757620; 753670; 749630; 745500; 741260;
  736910; 732460; 727900; 723230; 718460; 713620; 708730; 703800; 698850; 693910; 688990; 684110;
  679300; 674570; 669920; 665370; 660910; 656570; 652330; 648210; 644210; 640340; 636600; 633000;
  629540; 626200; 622990; 619900; 616930; 614070; 611310; 608660; 606100; 603630; 601250; 598940;
  596700; 594510; 592370; 590270; 588200; 586140; 584100; 582060; 580020; 577990; 575960; 573940;
  571930; 569930; 567940; 565960; 564000; 562050; 560130; 558240; 556400; 554610; 552880; 551230;
  549660; 548180; 546800; 545530; 544370; 543290; 542310; 541400; 540560; 539770; 539040; 538350;
  537700; 537070; 536460; 535870; 535300; 534730; 534170; 533610; 533050; 532480; 531900; 531310;
  530720; 530150; 529590; 529080; 528610; 528210; 527880; 527640; 527500; 527470; 527550; 527740;
  528020; 528400; 528880; 529440; 530080; 530800; 531600; 532460; 533370; 534270; 535160; 535990;
  536730; 537360; 537830; 538120; 538200; 538050; 537690; 537180; 536540; 535830; 535080; 534350;
  533660; 533060; 532600; 532300; 532170; 532180; 532330; 532600; 532980; 533460; 534010; 534630;
  535300; 536010; 536710; 537370; 537940; 538390; 538660; 538720; 538530; 538030; 537200; 536010;
  534510; 532770; 530890; 528920; 526940; 525040; 523280; 521740; 520500; 518640; 517020; 515400;
  513780; 512160; 510540; 508920; 507300; 505680; 504060; 502440; 500810; 499190; 497570; 495950;
  494330; 492710; 491090; 489460; 487840; 486220; 484600; 482980; 481360; 479740; 478130; 476510;
  474890; 473270; 471660; 470040; 468420; 466810; 465190; 463580; 461970; 460360; 458750; 457140;
  455530; 453920; 452310; 450700; 449100; 447490; 445890; 444290; 442690; 441090; 439490; 437890;
  436300; 434700; 433110; 431520; 429930; 428340; 426750; 425160; 423580; 422000; 420410; 418840;
  417260; 415680; 414110; 412530; 410960; 409390; 407830; 406260; 404700; 403130; 401570; 400020;
  398460; 396910; 395360; 393810].

(** hpp:4543-4583 *)
Definition T_CES60 : list dec := table (-6) [
  437100; 444820; 452220; 459310; 466140; 472720; 479100; 485300; 491350; 497280; 503120; 508890;
  514600; 520240; 525810; 531290; 536690; 542000; 547220; 552340; 557350; 562260; 567060; 571750;
  576340; 580830; 585230; 589520; 593720; 597820; 601830; 605750; 609590; 613340; 617020; 620630;
  624170; 627650; 631070; 634440; 637770; 641050; 644300; 647500; 650670; 653810; 656920; 660000;
  663050; 666080; 669080; 672060; 675020; 677950; 680840; 683700; 686510; 689270; 691970; 694620;
  697210; 699730; 702180; 704580; 706910; 709180; 711390; 713550; 715660; 717720; 719730; 721700;
  723620; 725490; 727330; 729120; 730880; 732590; 734270; 735910; 737510; 739080; 740610; 742110;
  743570; 745000; 746390; 747740; 749060; 750340; 751590; 752800; 753970; 755110; 756220; 757290;
  758330; 759350; 760330; 761280; 762200; 763100; 763960; 764790; 765590; 766360; 767080; 767760;
  768400; 768990; 769530; 770020; 770460; 770840; 771170; 771450; 771660; 771820; 771920; 771960;
  771930; 771840; 771690; 771470; 771180; 770820; 770400; 769900; 769330; 768680; 767960; 767160;
  766290; 765340; 764330; 763240; 762080; 760860; 759570; 758210; 756800; 755330; 753800; 752220;
  750600; 748950; 747270; 745560; 743840; 742100; 740360; 738620; 736870; 735120; 733360; 731590;
  729790; 727980; 726140; 724270; 722370; 720430; 718470; 716470; 714450; 712410; 710350; 708290;
  706210; 704140; 702060; 699990; 697930; 695890; 693870; 691890; 689950; 688050; 686200; 684410;
  682680; 681020; 679440; 677930; 676500; 675150; 673870; 672670; 671550; 670510; 669560; 668690;
  667900; 667170; 666510; 665890; 665330; 664800; 664300; 663820; 663360; 662900; 662450; 661990;
  661540; 661070; 660600; 660110; 659610; 659090; 658540; 657970; 657380; 656770; 656160; 655530;
  654910; 654290; 653670; 653070; 652490; 651930; 651400; 650900; 650440; 650020; 649650; 649330;
  649070; 648870; 648740; 648680; 648690; 648750; 648870; 649030; 649240; 649480; 649740; 650020;
  650320; 650630; 650940; 651270; 651620; 651990; 652380; 652810; 653270; 653760; 654300; 654880;
  655510; 656170; 656890; 657640; 658440; 659270; 660150; 661060; 662020; 663010; 664050; 665120;
  666230; 667380; 668560; 669790; 671060; 672370; 673720; 675110; 676530; 677980; 679440; 680900;
  682370; 683820; 685250; 686660; 688030; 689360; 690640; 691870; 693050; 694190; 695280; 696310;
  697300; 698230; 699110; 699940; 700710; 701450; 702140; 702800; 703440; 704050; 704640; 705220;
  705790; 706360; 706910; 707450; 707950; 708420; 708850; 709210; 709520; 709760; 709910; 709980;
  709970; 709900; 709770; 709600; 709400; 709180; 708960; 708730; 708530; 708350; 708210; 708110;
  708060; 708070; 708140; 708270; 708490; 708790; 709180; 709670; 710250; 710940; 711730; 712610;
  713600; 714690; 715890; 717190; 718590; 720100; 721710; 723410; 725210; 727100; 729060; 731110;
  733220; 735410; 737660; 739970; 742380; 744900; 747580; 750430; 753500; 756810; 760390; 764280;
  768500; 773060; 777870; 782810; 787780; 792650; 797310; 801640; 805530; 808860; 811530; 813450;
  814670; 815310; 815460; 815210; 814670; 813940; 813100; 812270; 811530; 810970; 810590; 810360;
  810270; 810300; 810430; 810640; 810900; 811210; 811530; 811850; 812160; 812420; 812630; 812760;
  812790; 812700; 812470; 812090].

(** hpp:4584-4624 *)
Definition T_CES61 : list dec := table (-6) [
  288730; 292590; 296480; 300390; 304340; 308310; 312310; 316340; 320400; 324490; 328600; 332740;
  336900; 341100; 345310; 349550; 353810; 358100; 362410; 366740; 369770; 374720; 379600; 384410;
  389160; 393830; 398430; 402960; 407420; 411800; 416110; 420350; 424510; 428600; 432600; 436540;
  440390; 444170; 447860; 451480; 455020; 458470; 461850; 465150; 468370; 471510; 474590; 477590;
  480520; 483380; 486180; 488910; 491570; 494160; 496690; 499150; 501540; 503860; 506100; 508280;
  510390; 512430; 514400; 516300; 518140; 519920; 521640; 523320; 524940; 526520; 528060; 529550;
  531000; 532390; 533720; 534970; 536140; 537230; 538220; 539100; 539870; 540520; 541060; 541510;
  541890; 542200; 542480; 542720; 542950; 543190; 543440; 543730; 544070; 544490; 545000; 545630;
  546400; 547330; 548440; 549750; 551280; 553040; 555030; 557200; 559530; 562000; 564590; 567250;
  569980; 572730; 575490; 578230; 580950; 583620; 586260; 588840; 591360; 593810; 596190; 598490;
  600700; 602810; 604830; 606750; 608580; 610310; 611950; 613490; 614950; 616300; 617570; 618740;
  619790; 620670; 621370; 621840; 622050; 621970; 621570; 620810; 619650; 618090; 616130; 613810;
  611170; 608240; 605050; 601640; 598030; 594270; 590380; 586390; 582320; 578170; 573950; 569650;
  565290; 560870; 556400; 551880; 547310; 542700; 538070; 533400; 528700; 523990; 519260; 514520;
  509770; 505020; 500270; 495530; 490810; 486150; 481550; 477040; 472650; 468380; 464270; 460340;
  456600; 453080; 449760; 446630; 443670; 440880; 438240; 435740; 433360; 431090; 428920; 426830;
  424820; 422900; 421060; 419300; 417620; 416030; 414520; 413090; 411750; 410480; 409300; 408200;
  407170; 406210; 405320; 404500; 403750; 403050; 402420; 401840; 401320; 400830; 400390; 399980;
  399590; 399220; 398860; 398510; 398150; 397790; 397420; 397060; 396700; 396340; 395990; 395660;
  395340; 395050; 394780; 394530; 394320; 394140; 393990; 393870; 393790; 393750; 393760; 393800;
  393880; 394010; 394190; 394400; 394660; 394950; 395270; 395630; 396010; 396420; 396860; 397320;
  397810; 398320; 398860; 399430; 400040; 400670; 401350; 402060; 402820; 403610; 404440; 405300;
  406190; 407100; 408020; 408950; 409890; 410820; 411750; 412660; 413550; 414420; 415250; 416040;
  416780; 417460; 418080; 418620; 419090; 419480; 419780; 420010; 420170; 420280; 420320; 420320;
  420280; 420200; 420080; 419950; 419780; 419600; 419400; 419170; 418930; 418670; 418400; 418100;
  417800; 417480; 417150; 416810; 416450; 416070; 415680; 415270; 414840; 414400; 413930; 413440;
  412930; 412400; 411850; 411270; 410660; 410030; 409370; 408690; 407980; 407800; 407250; 406710;
  406160; 405620; 405070; 404530; 403980; 403440; 402890; 402350; 401800; 401260; 400720; 400170;
  399630; 399090; 398540; 398000; 397460; 396920; 396380; 395830; 395290; 394750; 394210; 393670;
  393130; 392590; 392050; 391510; 390970; 390440; 389900; 389360; 388820; 388280; 387750; 387210;
  386670; 386140; 385600; 385060; 384530; 383990; 383460; 382920; 382390; 381850; 381320; 380790;
  380250; 379720; 379190; 378650; 378120; 377590; 377060; 376530; 375990; 375460; 374930; 374400;
  373870; 373340; 372810; 372290; 371760; 371230; 370700; 370170; 369640; 369120; 368590; 368060;
  367540; 367010; 366490; 365960].

(** hpp:4625-4665 *)
Definition T_CES62 : list dec := table (-6) [
  170090; 171900; 173730; 175570; 177430; 179300; 181190; 183090; 185010; 186950; 188900; 190860;
  192850; 194840; 196860; 198880; 200930; 202990; 205060; 207160; 208490; 211000; 213440; 215820;
  218150; 220430; 222660; 224870; 227040; 229190; 231330; 233460; 235580; 237700; 239840; 241990;
  244160; 246350; 248580; 250860; 253170; 255540; 257960; 260430; 262950; 265510; 268120; 270770;
  273470; 276210; 278990; 281800; 284670; 287580; 290540; 293570; 296660; 299810; 303050; 306360;
  309760; 313250; 316820; 320470; 324190; 327960; 331790; 335670; 339580; 343530; 347490; 351470;
  355460; 359440; 363400; 367330; 371230; 375080; 378860; 382580; 386210; 389750; 393190; 396520;
  399730; 402810; 405760; 408560; 411200; 413690; 416000; 418130; 420080; 421870; 423480; 424930;
  426230; 427370; 428350; 429200; 429900; 430460; 430880; 431160; 431290; 431280; 431120; 430800;
  430330; 429700; 428900; 427950; 426840; 425580; 424170; 422620; 420940; 419140; 417210; 415170;
  413020; 410770; 408430; 406010; 403530; 401010; 398460; 395880; 393310; 390740; 388200; 385690;
  383230; 380830; 378500; 376230; 374060; 371970; 369980; 368110; 366360; 364720; 363200; 361770;
  360400; 359080; 357780; 356490; 355190; 353850; 352460; 350990; 349460; 347860; 346210; 344510;
  342780; 341010; 339210; 337400; 335580; 333750; 331930; 330130; 328350; 326600; 324900; 323250;
  321660; 320140; 318700; 317350; 316100; 314960; 313930; 313030; 312270; 311650; 311180; 310880;
  310760; 310810; 311020; 311360; 311830; 312380; 313000; 313670; 314360; 315050; 315720; 316350;
  316920; 317440; 317880; 318250; 318540; 318740; 318830; 318820; 318700; 318460; 318100; 317650;
  317120; 316510; 315830; 315110; 314340; 313550; 312740; 311930; 311120; 310330; 309550; 308810;
  308100; 307440; 306820; 306270; 305790; 305390; 305060; 304800; 304610; 304490; 304430; 304430;
  304500; 304620; 304800; 305030; 305300; 305600; 305930; 306270; 306600; 306940; 307250; 307530;
  307780; 307980; 308140; 308260; 308360; 308430; 308500; 308560; 308620; 308690; 308770; 308880;
  309010; 309180; 309390; 309640; 309950; 310300; 310720; 311200; 311750; 312380; 313090; 313890;
  314790; 315790; 316910; 318150; 319520; 321020; 322670; 324470; 326430; 328550; 330840; 333300;
  335950; 338790; 341820; 345050; 348480; 352130; 356000; 360080; 364390; 368930; 373700; 378700;
  383940; 389420; 395150; 401120; 407350; 413840; 420580; 427580; 434850; 442390; 450190; 458270;
  466630; 475270; 484160; 493290; 502630; 512160; 521870; 531720; 541700; 551780; 561940; 572170;
  582430; 592700; 602970; 613210; 623400; 633520; 643540; 653450; 663210; 671790; 681040; 690160;
  699130; 707940; 716610; 725120; 733470; 741650; 749670; 757520; 765200; 772720; 780060; 787230;
  794220; 801050; 807700; 814180; 820500; 826640; 832620; 838430; 844070; 849560; 854880; 860050;
  865060; 869920; 874630; 879200; 883620; 887900; 892040; 896040; 899910; 903660; 907280; 910770;
  914150; 917410; 920560; 923600; 926530; 929360; 932080; 934710; 937240; 939690; 942040; 944310;
  946490; 948590; 950610; 952560; 954440; 956240; 957980; 959640; 961250; 962800; 964280; 965710;
  967080; 968400; 969670; 970890; 972060; 973190; 974270; 975310; 976310; 977260; 978190; 979070;
  979920; 980730; 981520; 982270].

(** hpp:4666-4706 *)
Definition T_CES63 : list dec := table (-6) [
  23525; 24208; 24909; 25631; 26372; 27135; 27919; 28725; 29553; 30405; 31280; 32180; 33105; 34055;
  35032; 36036; 37067; 38127; 39216; 40334; 39557; 41640; 43603; 45448; 47180; 48801; 50316; 51728;
  53040; 54256; 55379; 56414; 57362; 58229; 59016; 59729; 60370; 60943; 61452; 61899; 62289; 62626;
  62914; 63162; 63375; 63560; 63724; 63872; 64012; 64150; 64292; 64444; 64608; 64786; 64978; 65185;
  65409; 65651; 65912; 66193; 66495; 66820; 67168; 67538; 67932; 68350; 68791; 69257; 69747; 70262;
  70801; 71367; 71960; 72584; 73240; 73932; 74662; 75432; 76246; 77105; 78012; 78968; 79969; 81008;
  82079; 83176; 84292; 85421; 86558; 87695; 88827; 89948; 91055; 92146; 93219; 94271; 95300; 96304;
  97280; 98227; 99142; 100020; 100860; 101650; 102390; 103060; 103660; 104190; 104640; 104990;
  105250; 105410; 105460; 105420; 105290; 105080; 104780; 104400; 103950; 103430; 102850; 102200;
  101500; 100750; 99938; 99080; 98175; 97225; 96233; 95202; 94135; 93034; 91903; 90746; 89569;
  88376; 87170; 85958; 84742; 83527; 82318; 81119; 79930; 78753; 77589; 76437; 75300; 74177; 73069;
  71977; 70902; 69844; 68808; 67796; 66811; 65859; 64941; 64061; 63224; 62432; 61688; 60997; 60359;
  59776; 59247; 58775; 58359; 58001; 57702; 57462; 57282; 57164; 57108; 57114; 57184; 57319; 57519;
  57784; 58117; 58516; 58985; 59521; 60122; 60782; 61498; 62265; 63077; 63931; 64822; 65745; 66696;
  67669; 68660; 69662; 70670; 71677; 72679; 73669; 74641; 75590; 76510; 77395; 78240; 79041; 79793;
  80492; 81132; 81710; 82220; 82658; 83019; 83300; 83502; 83628; 83681; 83664; 83579; 83429; 83217;
  82946; 82618; 82237; 81808; 81334; 80822; 80276; 79700; 79101; 78484; 77852; 77211; 76565; 75917;
  75267; 74618; 73970; 73325; 72684; 72049; 71421; 70801; 70192; 69593; 69007; 68436; 67880; 67342;
  66823; 66324; 65847; 65394; 64965; 64558; 64173; 63806; 63457; 63122; 62799; 62488; 62185; 61889;
  61598; 61315; 61045; 60790; 60553; 60340; 60153; 59996; 59872; 59786; 59739; 59734; 59768; 59841;
  59954; 60105; 60295; 60522; 60786; 61088; 61425; 61798; 62205; 62644; 63115; 63615; 64145; 64702;
  65286; 65894; 66528; 67188; 67878; 68601; 69360; 70158; 70999; 71885; 72820; 73806; 74845; 75935;
  77070; 78247; 79460; 80706; 81980; 83277; 84593; 85923; 87264; 88610; 89957; 91300; 92636; 93960;
  95267; 96552; 97812; 99042; 100920; 102390; 103890; 105410; 106940; 108500; 110080; 111670;
  113290; 114920; 116580; 118260; 119950; 121670; 123410; 125170; 126960; 128760; 130590; 132440;
  134310; 136200; 138120; 140050; 142020; 144000; 146010; 148030; 150090; 152160; 154260; 156390;
  158530; 160700; 162900; 165120; 167360; 169630; 171920; 174240; 176580; 178940; 181330; 183750;
  186190; 188650; 191140; 193660; 196200; 198760; 201350; 203970; 206610; 209270; 211970; 214680;
  217420; 220190; 222980; 225800; 228640; 231510; 234400; 237310; 240260; 243220; 246210; 249230;
  252270; 255340; 258430; 261540; 264680; 267840; 271020; 274230; 277470; 280720; 284000].

(** hpp:4707-4747 *)
Definition T_CES64 : list dec := table (-6) [
  169890; 172280; 174700; 177140; 179610; 182110; 184630; 187190; 189760; 192370; 195000; 197660;
  200350; 203060; 205800; 208570; 211370; 214190; 217040; 219920; 223260; 225500; 228300; 231540;
  235120; 238930; 242840; 246760; 250570; 254170; 257430; 260280; 262750; 264890; 266760; 268420;
  269920; 271320; 272680; 274040; 275480; 277030; 278690; 280460; 282320; 284270; 286290; 288370;
  290500; 292670; 294880; 297110; 299370; 301660; 303980; 306350; 308770; 311250; 313780; 316390;
  319060; 321810; 324650; 327580; 330620; 333770; 337040; 340440; 343970; 347660; 351500; 355500;
  359670; 363990; 368470; 373100; 377880; 382810; 387870; 393080; 398420; 403890; 409470; 415150;
  420890; 426680; 432500; 438330; 444140; 449920; 455650; 461300; 466850; 472290; 477580; 482710;
  487650; 492390; 496900; 501150; 505140; 508830; 512230; 515330; 518140; 520640; 522840; 524730;
  526320; 527610; 528580; 529250; 529610; 529680; 529460; 528950; 528180; 527140; 525840; 524290;
  522500; 520470; 518210; 515740; 513050; 510160; 507070; 503800; 500350; 496730; 492950; 489020;
  484930; 480710; 476350; 471850; 467230; 462500; 457640; 452680; 447610; 442440; 437190; 431850;
  426430; 420950; 415410; 409820; 404180; 398510; 392810; 387090; 381350; 375590; 369820; 364030;
  358220; 352400; 346570; 340720; 334870; 329010; 323140; 317270; 311410; 305560; 299730; 293920;
  288140; 282380; 276670; 271000; 265380; 259830; 254340; 248930; 243620; 238400; 233290; 228300;
  223440; 218710; 214120; 209660; 205340; 201150; 197100; 193180; 189390; 185730; 182210; 178820;
  175550; 172400; 169360; 166430; 163600; 160850; 158190; 155610; 153100; 150650; 148270; 145940;
  143670; 141450; 139270; 137140; 135050; 133000; 130990; 129010; 127060; 125150; 123290; 121470;
  119700; 117990; 116330; 114730; 113200; 111740; 110340; 109010; 107750; 106570; 105450; 104410;
  103440; 102540; 101710; 100960; 100270; 99654; 99094; 98591; 98139; 97733; 97369; 97043; 96750;
  96486; 96247; 96033; 95839; 95665; 95508; 95365; 95234; 95113; 95000; 94892; 94791; 94698; 94615;
  94543; 94483; 94438; 94408; 94395; 94400; 94425; 94472; 94541; 94635; 94753; 94898; 95071; 95273;
  95506; 95770; 96067; 96394; 96750; 97131; 97535; 97959; 98401; 98859; 99329; 99810; 100300;
  100790; 101290; 101800; 102310; 102810; 103320; 103830; 104340; 104840; 105340; 105830; 106310;
  106790; 107250; 107700; 108130; 108540; 108940; 109320; 109680; 110010; 110310; 110590; 110840;
  111060; 111240; 111400; 111510; 111590; 111630; 111640; 111610; 111570; 111510; 111430; 111360;
  111280; 111210; 111150; 111070; 111000; 110930; 110860; 110790; 110720; 110650; 110580; 110510;
  110440; 110370; 110300; 110230; 110160; 110080; 110010; 109940; 109870; 109800; 109730; 109660;
  109590; 109520; 109450; 109380; 109310; 109240; 109170; 109100; 109030; 108960; 108890; 108830;
  108760; 108690; 108620; 108550; 108480; 108410; 108340; 108270; 108200; 108130; 108060; 107990;
  107920; 107850; 107790; 107720; 107650; 107580; 107510; 107440; 107370; 107300; 107230; 107170;
  107100; 107030; 106960; 106890; 106820; 106750; 106690; 106620; 106550; 106480; 106410; 106340;
  106280; 106210; 106140; 106070; 106000; 105940; 105870; 105800; 105730; 105660].

(** hpp:4748-4788 *)
Definition T_CES65 : list dec := table (-6) [
  6016; 6529; 7086; 7689; 8344; 9053; 9823; 10657; 11561; 12540; 13602; 14752; 15998; 17348; 18809;
  20390; 22101; 23953; 25955; 28120; 29489; 32119; 35136; 38499; 42163; 46088; 50229; 54545; 58993;
  63529; 68113; 72700; 77249; 81717; 86060; 90237; 94205; 97922; 101340; 104430; 107130; 109430;
  111350; 112950; 114250; 115330; 116210; 116940; 117580; 118170; 118750; 119360; 120010; 120680;
  121370; 122070; 122780; 123480; 124180; 124850; 125500; 126120; 126720; 127310; 127900; 128500;
  129120; 129780; 130480; 131230; 132060; 132950; 133930; 134980; 136110; 137330; 138630; 140010;
  141480; 143030; 144670; 146390; 148200; 150100; 152090; 154170; 156320; 158570; 160900; 163310;
  165810; 168390; 171030; 173700; 176370; 179020; 181630; 184160; 186580; 188890; 191030; 193000;
  194780; 196350; 197690; 198800; 199650; 200240; 200550; 200560; 200270; 199650; 198740; 197550;
  196100; 194430; 192540; 190470; 188240; 185870; 183390; 180810; 178160; 175440; 172670; 169870;
  167050; 164230; 161420; 158630; 155890; 153190; 150560; 148000; 145520; 143130; 140830; 138640;
  136550; 134590; 132750; 131050; 129470; 128000; 126640; 125370; 124180; 123070; 122010; 121010;
  120040; 119100; 118190; 117290; 116400; 115520; 114640; 113760; 112860; 111940; 111010; 110040;
  109060; 108070; 107070; 106090; 105120; 104170; 103260; 102390; 101570; 100820; 100130; 99521;
  98997; 98566; 98236; 98017; 97915; 97940; 98098; 98395; 98818; 99351; 99976; 100680; 101440;
  102240; 103070; 103920; 104750; 105560; 106340; 107060; 107700; 108270; 108730; 109070; 109270;
  109330; 109220; 108930; 108470; 107840; 107050; 106120; 105040; 103830; 102500; 101050; 99489;
  97830; 96085; 94268; 92393; 90474; 88527; 86563; 84599; 82647; 80723; 78837; 76992; 75185; 73417;
  71686; 69990; 68329; 66702; 65108; 63546; 62013; 60510; 59034; 57584; 56159; 54757; 53376; 52015;
  50673; 49347; 48037; 46743; 45464; 44200; 42951; 41718; 40500; 39297; 38109; 36936; 35778; 34637;
  33514; 32411; 31331; 30273; 29241; 28235; 27258; 26312; 25397; 24515; 23665; 22848; 22065; 21316;
  20601; 19921; 19276; 18666; 18093; 17553; 17046; 16571; 16126; 15709; 15319; 14955; 14615; 14298;
  14002; 13725; 13468; 13229; 13007; 12801; 12609; 12432; 12267; 12113; 11971; 11839; 11717; 11605;
  11502; 11408; 11324; 11248; 11180; 11120; 11069; 11024; 10988; 10958; 10935; 10920; 10911; 10908;
  10912; 10922; 10938; 10959; 10987; 11019; 11057; 11100; 11148; 11201; 11258; 11319; 11270; 11300;
  11329; 11359; 11389; 11418; 11448; 11478; 11508; 11539; 11569; 11599; 11630; 11660; 11691; 11721;
  11752; 11783; 11813; 11844; 11875; 11907; 11938; 11969; 12000; 12032; 12063; 12095; 12127; 12158;
  12190; 12222; 12254; 12286; 12318; 12351; 12383; 12415; 12448; 12480; 12513; 12546; 12579; 12612;
  12645; 12678; 12711; 12744; 12777; 12811; 12844; 12878; 12912; 12945; 12979; 13013; 13047; 13081;
  13116; 13150; 13184; 13219; 13253; 13288; 13323; 13358; 13393; 13428; 13463; 13498; 13533; 13569;
  13604; 13640; 13675; 13711; 13747; 13783; 13819].

(** hpp:4789-4829 *)
Definition T_CES66 : list dec := table (-6) [
  99631; 100770; 101920; 103080; 104260; 105440; 106640; 107850; 109070; 110300; 111550; 112800;
  114070; 115360; 116650; 117960; 119280; 120610; 121960; 123320; 124900; 125950; 127270; 128810;
  130500; 132310; 134180; 136070; 137910; 139680; 141300; 142750; 144040; 145200; 146240; 147210;
  148130; 149020; 149910; 150830; 151800; 152850; 153970; 155180; 156450; 157800; 159210; 160690;
  162240; 163840; 165500; 167220; 168990; 170820; 172710; 174670; 176680; 178760; 180910; 183120;
  185400; 187750; 190180; 192690; 195290; 197980; 200760; 203650; 206650; 209770; 213000; 216360;
  219840; 223460; 227200; 231070; 235070; 239200; 243470; 247870; 252400; 257070; 261840; 266710;
  271630; 276600; 281570; 286530; 291460; 296320; 301100; 305770; 310300; 314690; 318920; 322950;
  326790; 330390; 333760; 336870; 339700; 342240; 344470; 346420; 348070; 349430; 350500; 351280;
  351770; 351980; 351900; 351540; 350900; 349990; 348810; 347370; 345680; 343740; 341560; 339150;
  336500; 333630; 330550; 327270; 323800; 320160; 316360; 312410; 308330; 304120; 299800; 295380;
  290880; 286290; 281640; 276920; 272150; 267330; 262480; 257600; 252700; 247790; 242880; 237980;
  233080; 228200; 223350; 218520; 213730; 208990; 204300; 199660; 195090; 190570; 186120; 181740;
  177430; 173180; 169010; 164920; 160900; 156960; 153110; 149330; 145630; 142020; 138490; 135040;
  131680; 128400; 125200; 122090; 119060; 116130; 113290; 110540; 107890; 105340; 102880; 100540;
  98300; 96169; 94144; 92220; 90394; 88664; 87024; 85471; 84002; 82613; 81300; 80060; 78888; 77781;
  76735; 75745; 74807; 73918; 73073; 72268; 71500; 70764; 70059; 69382; 68732; 68107; 67506; 66926;
  66367; 65825; 65300; 64790; 64295; 63815; 63350; 62901; 62468; 62051; 61651; 61267; 60900; 60550;
  60217; 59902; 59605; 59325; 59063; 58820; 58594; 58388; 58200; 58031; 57879; 57743; 57621; 57512;
  57414; 57325; 57244; 57170; 57100; 57034; 56971; 56911; 56855; 56802; 56754; 56709; 56668; 56632;
  56600; 56572; 56549; 56530; 56515; 56504; 56497; 56493; 56492; 56495; 56500; 56508; 56520; 56536;
  56556; 56581; 56612; 56648; 56692; 56742; 56800; 56866; 56939; 57020; 57105; 57196; 57292; 57390;
  57492; 57595; 57700; 57805; 57910; 58015; 58118; 58221; 58322; 58420; 58517; 58610; 58700; 58786;
  58869; 58948; 59024; 59096; 59164; 59228; 59289; 59346; 59400; 59450; 59496; 59538; 59576; 59609;
  59638; 59661; 59680; 59693; 59700; 59702; 59698; 59691; 59680; 59667; 59653; 59638; 59624; 59611;
  59600; 59585; 59572; 59559; 59545; 59532; 59519; 59506; 59492; 59479; 59466; 59453; 59439; 59426;
  59413; 59400; 59386; 59373; 59360; 59347; 59333; 59320; 59307; 59294; 59280; 59267; 59254; 59241;
  59227; 59214; 59201; 59188; 59175; 59161; 59148; 59135; 59122; 59109; 59095; 59082; 59069; 59056;
  59043; 59030; 59016; 59003; 58990; 58977; 58964; 58951; 58937; 58924; 58911; 58898; 58885; 58872;
  58858; 58845; 58832; 58819; 58806; 58793; 58780; 58767; 58753; 58740; 58727; 58714; 58701; 58688;
  58675; 58662; 58649; 58635; 58622; 58609; 58596; 58583; 58570; 58557].

(** hpp:4830-4870 *)
Definition T_CES67 : list dec := table (-6) [
  109270; 110920; 112600; 114290; 116010; 117750; 119520; 121300; 123110; 124950; 126800; 128680;
  130590; 132510; 134460; 136440; 138440; 140470; 142510; 144590; 147000; 148630; 150660; 153020;
  155630; 158420; 161300; 164190; 167030; 169720; 172200; 174400; 176350; 178070; 179620; 181020;
  182320; 183540; 184740; 185950; 187200; 188530; 189940; 191440; 193010; 194670; 196410; 198240;
  200140; 202130; 204200; 206350; 208580; 210880; 213270; 215730; 218260; 220860; 223540; 226290;
  229100; 231980; 234940; 237980; 241100; 244310; 247630; 251050; 254580; 258230; 262000; 265900;
  269940; 274100; 278390; 282810; 287360; 292030; 296830; 301750; 306800; 311970; 317230; 322550;
  327920; 333300; 338670; 343980; 349230; 354380; 359400; 364270; 368970; 373480; 377800; 381920;
  385810; 389470; 392880; 396020; 398900; 401490; 403780; 405770; 407440; 408780; 409790; 410460;
  410770; 410720; 410300; 409500; 408340; 406820; 404980; 402820; 400360; 397630; 394630; 391380;
  387900; 384210; 380320; 376230; 371970; 367540; 362960; 358230; 353370; 348390; 343300; 338110;
  332840; 327490; 322080; 316610; 311110; 305570; 300020; 294460; 288900; 283360; 277840; 272340;
  266880; 261450; 256070; 250740; 245470; 240250; 235100; 230020; 225010; 220080; 215220; 210430;
  205720; 201080; 196510; 192020; 187600; 183260; 178990; 174800; 170690; 166660; 162700; 158830;
  155040; 151330; 147700; 144160; 140700; 137330; 134070; 130900; 127830; 124880; 122030; 119310;
  116700; 114220; 111860; 109610; 107480; 105450; 103530; 101710; 99983; 98348; 96800; 95334; 93947;
  92633; 91387; 90206; 89084; 88017; 87001; 86030; 85100; 84207; 83348; 82520; 81721; 80949; 80201;
  79474; 78767; 78076; 77400; 76736; 76084; 75446; 74821; 74211; 73616; 73037; 72474; 71928; 71400;
  70891; 70401; 69934; 69489; 69070; 68676; 68311; 67976; 67672; 67400; 67162; 66956; 66778; 66627;
  66498; 66389; 66298; 66221; 66156; 66100; 66050; 66005; 65963; 65925; 65889; 65853; 65818; 65781;
  65742; 65700; 65654; 65607; 65559; 65514; 65472; 65437; 65410; 65394; 65390; 65400; 65427; 65469;
  65527; 65599; 65685; 65784; 65896; 66020; 66155; 66300; 66455; 66618; 66788; 66962; 67138; 67316;
  67493; 67667; 67836; 68000; 68156; 68303; 68441; 68569; 68687; 68794; 68889; 68973; 69043; 69100;
  69143; 69174; 69193; 69201; 69200; 69192; 69176; 69155; 69129; 69100; 69069; 69035; 68997; 68956;
  68911; 68861; 68805; 68744; 68675; 68600; 68517; 68429; 68338; 68246; 68155; 68068; 67986; 67913;
  67850; 67800; 67722; 67655; 67588; 67521; 67454; 67388; 67321; 67254; 67188; 67121; 67055; 66989;
  66922; 66856; 66790; 66724; 66658; 66592; 66526; 66460; 66394; 66328; 66263; 66197; 66131; 66066;
  66000; 65935; 65870; 65804; 65739; 65674; 65609; 65544; 65479; 65414; 65349; 65284; 65220; 65155;
  65090; 65026; 64961; 64897; 64833; 64768; 64704; 64640; 64576; 64512; 64447; 64384; 64320; 64256;
  64192; 64128; 64065; 64001; 63937; 63874; 63811; 63747; 63684; 63621; 63557; 63494; 63431; 63368;
  63305; 63242; 63179; 63117; 63054; 62991; 62929; 62866; 62804; 62741; 62679].

(** hpp:4871-4911 *)
Definition T_CES68 : list dec := table (-6) [
  221490; 224330; 227190; 230080; 233000; 235940; 238910; 241910; 244930; 247970; 251040; 254140;
  257260; 260400; 263570; 266760; 269980; 273230; 276490; 279790; 282450; 286090; 289700; 293280;
  296830; 300360; 303860; 307350; 310810; 314260; 317690; 321110; 324510; 327910; 331290; 334670;
  338040; 341400; 344770; 348130; 351490; 354860; 358220; 361580; 364920; 368260; 371570; 374860;
  378130; 381370; 384570; 387740; 390860; 393940; 396980; 399970; 402910; 405800; 408640; 411420;
  414150; 416810; 419420; 421970; 424460; 426900; 429290; 431630; 433920; 436160; 438360; 440510;
  442600; 444620; 446550; 448370; 450070; 451640; 453050; 454300; 455360; 456240; 456930; 457460;
  457840; 458100; 458240; 458290; 458260; 458170; 458040; 457890; 457730; 457590; 457490; 457450;
  457500; 457650; 457940; 458370; 458970; 459760; 460720; 461820; 463040; 464350; 465730; 467160;
  468600; 470040; 471440; 472790; 474060; 475260; 476350; 477320; 478170; 478880; 479420; 479800;
  479990; 479990; 479790; 479420; 478870; 478160; 477310; 476310; 475180; 473930; 472570; 471110;
  469520; 467780; 465880; 463780; 461480; 458940; 456140; 453070; 449700; 446010; 442020; 437770;
  433280; 428560; 423660; 418600; 413400; 408100; 402710; 397260; 391770; 386260; 380730; 375200;
  369690; 364210; 358770; 353400; 348090; 342870; 337740; 332680; 327700; 322790; 317940; 313160;
  308430; 303760; 299140; 294570; 290060; 285630; 281280; 277040; 272920; 268940; 265100; 261420;
  257930; 254620; 251490; 248540; 245760; 243130; 240640; 238290; 236070; 233960; 231960; 230060;
  228260; 226560; 224970; 223490; 222120; 220870; 219740; 218730; 217840; 217080; 216450; 215920;
  215510; 215190; 214970; 214830; 214770; 214780; 214850; 214980; 215160; 215380; 215640; 215930;
  216250; 216580; 216930; 217280; 217630; 217980; 218330; 218660; 219000; 219340; 219670; 220010;
  220350; 220690; 221040; 221390; 221740; 222100; 222460; 222810; 223160; 223490; 223820; 224140;
  224440; 224720; 224980; 225240; 225480; 225710; 225940; 226160; 226370; 226590; 226810; 227030;
  227260; 227500; 227770; 228070; 228400; 228780; 229200; 229670; 230210; 230810; 231470; 232180;
  232930; 233730; 234560; 235410; 236280; 237160; 238040; 238920; 239780; 240630; 241450; 242240;
  242980; 243670; 244300; 244860; 245350; 245760; 246100; 246360; 246560; 246690; 246780; 246810;
  246810; 246770; 246690; 246600; 246480; 246330; 246170; 245990; 245790; 245570; 245340; 245100;
  244840; 244570; 244290; 244000; 243700; 243380; 243050; 242700; 242330; 241940; 241540; 241120;
  240680; 240210; 239720; 239210; 238680; 238120; 237540; 236930; 236290; 236170; 235700; 235220;
  234750; 234280; 233800; 233330; 232860; 232390; 231920; 231450; 230980; 230520; 230050; 229580;
  229120; 228650; 228190; 227720; 227260; 226800; 226340; 225870; 225410; 224950; 224500; 224040;
  223580; 223120; 222670; 222210; 221750; 221300; 220850; 220390; 219940; 219490; 219040; 218590;
  218140; 217690; 217240; 216790; 216340; 215900; 215450; 215010; 214560; 214120; 213680; 213230;
  212790; 212350; 211910; 211470; 211030; 210590; 210160; 209720; 209280; 208850; 208410; 207980;
  207540; 207110; 206680; 206250; 205810; 205380; 204950; 204520; 204100; 203670; 203240; 202820;
  202390; 201960; 201540; 201120].

(** hpp:4912-4952 *)
Definition T_CES69 : list dec := table (-6) [
  132250; 133640; 135050; 136460; 137890; 139330; 140780; 142250; 143720; 145210; 146720; 148230;
  149760; 151310; 152860; 154430; 156010; 157610; 159210; 160840; 162200; 163980; 165750; 167500;
  169250; 170980; 172710; 174440; 176160; 177890; 179610; 181340; 183070; 184810; 186560; 188310;
  190090; 191870; 193670; 195490; 197330; 199200; 201080; 202970; 204880; 206790; 208700; 210610;
  212520; 214410; 216300; 218160; 220000; 221830; 223630; 225400; 227150; 228860; 230550; 232200;
  233810; 235390; 236930; 238440; 239920; 241360; 242770; 244150; 245510; 246830; 248140; 249410;
  250650; 251840; 252950; 253990; 254920; 255750; 256450; 257010; 257410; 257650; 257730; 257680;
  257510; 257240; 256880; 256460; 255980; 255470; 254940; 254410; 253900; 253430; 253010; 252670;
  252430; 252300; 252300; 252450; 252770; 253280; 253950; 254780; 255730; 256790; 257930; 259150;
  260400; 261690; 262980; 264250; 265500; 266720; 267890; 269020; 270080; 271080; 272010; 272840;
  273590; 274230; 274780; 275230; 275590; 275870; 276060; 276170; 276210; 276170; 276060; 275890;
  275630; 275260; 274770; 274130; 273330; 272330; 271130; 269700; 268020; 266080; 263900; 261490;
  258880; 256090; 253150; 250080; 246900; 243630; 240310; 236940; 233540; 230120; 226700; 223270;
  219840; 216430; 213050; 209710; 206400; 203150; 199950; 196800; 193690; 190640; 187630; 184660;
  181730; 178850; 176000; 173200; 170440; 167750; 165130; 162600; 160170; 157850; 155650; 153590;
  151680; 149930; 148340; 146880; 145570; 144380; 143310; 142350; 141490; 140720; 140040; 139440;
  138920; 138510; 138200; 138020; 137970; 138060; 138310; 138720; 139320; 140100; 141050; 142170;
  143420; 144810; 146310; 147910; 149580; 151330; 153130; 154960; 156820; 158690; 160560; 162420;
  164260; 166070; 167830; 169530; 171160; 172710; 174190; 175600; 176930; 178200; 179410; 180570;
  181670; 182720; 183730; 184700; 185630; 186510; 187360; 188160; 188930; 189650; 190330; 190970;
  191560; 192120; 192630; 193110; 193550; 193960; 194340; 194690; 195010; 195310; 195580; 195840;
  196080; 196320; 196570; 196820; 197080; 197380; 197700; 198060; 198470; 198930; 199430; 199980;
  200560; 201170; 201800; 202450; 203110; 203780; 204440; 205100; 205750; 206380; 206980; 207560;
  208100; 208600; 209050; 209460; 209800; 210090; 210320; 210500; 210630; 210710; 210760; 210770;
  210740; 210700; 210630; 210540; 210440; 210320; 210180; 210030; 209870; 209690; 209500; 209300;
  209080; 208860; 208620; 208370; 208110; 207840; 207560; 207260; 206960; 206630; 206300; 205950;
  205590; 205220; 204830; 204420; 204000; 203570; 203120; 202660; 202180; 202020; 201640; 201270;
  200890; 200510; 200130; 199760; 199380; 199000; 198630; 198250; 197880; 197510; 197130; 196760;
  196390; 196020; 195650; 195280; 194910; 194540; 194170; 193800; 193430; 193070; 192700; 192330;
  191970; 191600; 191240; 190880; 190510; 190150; 189790; 189420; 189060; 188700; 188340; 187980;
  187620; 187260; 186910; 186550; 186190; 185840; 185480; 185120; 184770; 184410; 184060; 183710;
  183350; 183000; 182650; 182300; 181950; 181600; 181250; 180900; 180550; 180200; 179850; 179510;
  179160; 178820; 178470; 178120; 177780; 177440; 177090; 176750; 176410; 176070; 175720; 175380;
  175040; 174700; 174360; 174030].

(** hpp:4953-4993 *)
Definition T_CES70 : list dec := table (-6) [
  317940; 323480; 329060; 334680; 340360; 346080; 351850; 357660; 363520; 369410; 375340; 381310;
  387320; 393360; 399440; 405540; 411680; 417840; 424030; 430240; 435370; 442130; 448810; 455430;
  461970; 468450; 474860; 481210; 487490; 493710; 499880; 505990; 512040; 518040; 523990; 529900;
  535750; 541560; 547320; 553040; 558720; 564360; 569960; 575510; 581000; 586440; 591820; 597130;
  602370; 607530; 612610; 617610; 622520; 627340; 632070; 636720; 641270; 645740; 650110; 654390;
  658570; 662660; 666660; 670560; 674350; 678050; 681640; 685130; 688510; 691790; 694950; 698000;
  700930; 703720; 706380; 708900; 711260; 713450; 715470; 717310; 718960; 720410; 721670; 722750;
  723640; 724380; 724940; 725360; 725630; 725760; 725760; 725630; 725390; 725020; 724530; 723920;
  723200; 722360; 721410; 720340; 719160; 717870; 716470; 714960; 713340; 711610; 709760; 707800;
  705720; 703540; 701230; 698820; 696290; 693640; 690880; 688000; 685010; 681900; 678670; 675330;
  671870; 668290; 664600; 660800; 656890; 652880; 648780; 644580; 640300; 635920; 631470; 626940;
  622330; 617630; 612840; 607960; 602980; 597900; 592710; 587420; 582010; 576480; 570850; 565130;
  559320; 553430; 547480; 541480; 535440; 529370; 523270; 517170; 511060; 504970; 498880; 492830;
  486800; 480820; 474880; 469010; 463200; 457460; 451790; 446200; 440680; 435230; 429850; 424540;
  419290; 414110; 408990; 403940; 398960; 394070; 389270; 384580; 380000; 375540; 371230; 367050;
  363030; 359180; 355480; 351940; 348540; 345280; 342150; 339140; 336250; 333460; 330780; 328190;
  325700; 323310; 321010; 318800; 316700; 314690; 312770; 310960; 309240; 307630; 306100; 304670;
  303330; 302080; 300910; 299810; 298800; 297850; 296980; 296170; 295430; 294750; 294120; 293550;
  293030; 292560; 292140; 291760; 291420; 291110; 290850; 290620; 290420; 290270; 290140; 290050;
  289990; 289970; 289970; 290010; 290080; 290170; 290280; 290410; 290550; 290710; 290870; 291040;
  291210; 291380; 291550; 291710; 291880; 292060; 292240; 292430; 292630; 292840; 293070; 293300;
  293560; 293840; 294150; 294500; 294880; 295300; 295770; 296300; 296880; 297520; 298210; 298960;
  299740; 300570; 301420; 302300; 303190; 304100; 305020; 305930; 306840; 307730; 308590; 309410;
  310180; 310910; 311560; 312140; 312640; 313050; 313380; 313630; 313800; 313920; 313970; 313980;
  313940; 313880; 313780; 313660; 313520; 313360; 313190; 312990; 312790; 312570; 312330; 312080;
  311820; 311550; 311260; 310970; 310660; 310340; 310010; 309660; 309300; 308920; 308520; 308110;
  307680; 307240; 306770; 306290; 305790; 305270; 304720; 304160; 303580; 303410; 302960; 302500;
  302050; 301600; 301140; 300690; 300240; 299780; 299330; 298880; 298430; 297980; 297530; 297080;
  296630; 296180; 295730; 295290; 294840; 294390; 293940; 293500; 293050; 292600; 292160; 291710;
  291270; 290830; 290380; 289940; 289500; 289050; 288610; 288170; 287730; 287290; 286850; 286410;
  285970; 285530; 285090; 284650; 284210; 283770; 283340; 282900; 282460; 282030; 281590; 281160;
  280720; 280290; 279850; 279420; 278990; 278550; 278120; 277690; 277260; 276830; 276400; 275970;
  275540; 275110; 274680; 274250; 273820; 273390; 272960; 272540; 272110; 271680; 271260; 270830;
  270410; 269980; 269560; 269140].

(** hpp:4994-5034 *)
Definition T_CES71 : list dec := table (-6) [
  36458; 37052; 37656; 38269; 38891; 39523; 40165; 40817; 41479; 42151; 42834; 43527; 44231; 44946;
  45672; 46409; 47157; 47917; 48689; 49472; 50400; 51000; 51761; 52667; 53702; 54850; 56093; 57416;
  58803; 60236; 61700; 63182; 64688; 66225; 67802; 69429; 71113; 72863; 74689; 76598; 78600; 80701;
  82898; 85187; 87563; 90022; 92560; 95171; 97851; 100600; 103400; 106260; 109170; 112120; 115120;
  118140; 121200; 124280; 127380; 130480; 133600; 136720; 139840; 142970; 146110; 149250; 152410;
  155580; 158770; 161970; 165200; 168450; 171700; 174960; 178200; 181410; 184590; 187720; 190790;
  193790; 196700; 199510; 202220; 204800; 207240; 209530; 211650; 213590; 215340; 216880; 218200;
  219290; 220140; 220780; 221190; 221400; 221400; 221210; 220820; 220250; 219500; 218580; 217490;
  216250; 214860; 213330; 211680; 209890; 208000; 206000; 203900; 201710; 199430; 197060; 194610;
  192060; 189430; 186700; 183890; 180990; 178000; 174920; 171770; 168550; 165280; 161970; 158630;
  155270; 151900; 148540; 145200; 141890; 138620; 135400; 132240; 129160; 126170; 123280; 120490;
  117830; 115300; 112910; 110660; 108540; 106550; 104670; 102910; 101260; 99714; 98262; 96900;
  95621; 94409; 93246; 92115; 90998; 89876; 88734; 87552; 86313; 85000; 83599; 82110; 80540; 78893;
  77176; 75392; 73547; 71647; 69696; 67700; 65665; 63601; 61518; 59427; 57338; 55262; 53210; 51191;
  49218; 47300; 45449; 43679; 42005; 40444; 39011; 37721; 36589; 35632; 34863; 34300; 33954; 33829;
  33925; 34242; 34780; 35540; 36522; 37726; 39151; 40800; 42663; 44699; 46857; 49088; 51342; 53568;
  55717; 57739; 59583; 61200; 62549; 63633; 64462; 65047; 65402; 65536; 65461; 65189; 64732; 64100;
  63308; 62378; 61336; 60206; 59014; 57785; 56544; 55316; 54126; 53000; 51957; 50999; 50122; 49321;
  48593; 47933; 47338; 46803; 46325; 45900; 45523; 45192; 44901; 44648; 44428; 44238; 44074; 43932;
  43809; 43700; 43603; 43516; 43438; 43370; 43309; 43256; 43209; 43168; 43132; 43100; 43073; 43057;
  43057; 43082; 43136; 43228; 43364; 43550; 43793; 44100; 44477; 44931; 45467; 46091; 46808; 47624;
  48546; 49579; 50728; 52000; 53398; 54919; 56556; 58304; 60157; 62110; 64156; 66291; 68507; 70800;
  73163; 75589; 78069; 80597; 83163; 85760; 88381; 91016; 93658; 96300; 98936; 101580; 104230;
  106910; 109630; 112400; 115230; 118130; 121120; 124200; 127380; 130610; 133840; 137000; 140040;
  142900; 145520; 147850; 149830; 151400; 153990; 156220; 158470; 160740; 163050; 165380; 167730;
  170120; 172520; 174960; 177430; 179920; 182430; 184980; 187550; 190150; 192780; 195440; 198120;
  200830; 203570; 206330; 209130; 211950; 214800; 217670; 220580; 223510; 226470; 229460; 232470;
  235510; 238580; 241680; 244800; 247960; 251130; 254340; 257570; 260830; 264120; 267430; 270770;
  274130; 277520; 280940; 284380; 287850; 291340; 294860; 298400; 301960; 305550; 309170; 312800;
  316460; 320150; 323850; 327580; 331330; 335100; 338890; 342710; 346540; 350400; 354270; 358160;
  362070; 366000; 369950; 373910; 377900; 381900; 385910; 389940; 393990; 398050; 402120; 406210].

(** hpp:5035-5075 *)
Definition T_CES72 : list dec := table (-6) [
  377560; 380670; 383790; 386910; 390050; 393190; 396350; 399510; 402680; 405860; 409050; 412240;
  415440; 418650; 421870; 425090; 428320; 431560; 434800; 438040; 440220; 443920; 447570; 451160;
  454690; 458150; 461550; 464880; 468130; 471320; 474430; 477460; 480410; 483280; 486070; 488770;
  491380; 493910; 496340; 498670; 500910; 503050; 505100; 507060; 508930; 510730; 512450; 514110;
  515710; 517250; 518740; 520180; 521580; 522950; 524270; 525560; 526820; 528060; 529260; 530450;
  531620; 532770; 533900; 535010; 536100; 537160; 538200; 539210; 540180; 541120; 542030; 542890;
  543720; 544510; 545270; 545980; 546670; 547310; 547920; 548490; 549030; 549540; 550010; 550450;
  550850; 551220; 551550; 551850; 552110; 552340; 552540; 552700; 552820; 552920; 552970; 553000;
  552990; 552950; 552880; 552780; 552640; 552470; 552270; 552040; 551780; 551490; 551170; 550810;
  550420; 550000; 549550; 549060; 548550; 548000; 547420; 546810; 546160; 545480; 544780; 544030;
  543260; 542460; 541620; 540760; 539860; 538940; 537980; 537000; 535990; 534950; 533890; 532790;
  531670; 530520; 529330; 528090; 526820; 525500; 524120; 522700; 521210; 519670; 518060; 516410;
  514720; 512980; 511210; 509410; 507590; 505750; 503900; 502040; 500180; 498320; 496460; 494610;
  492780; 490960; 489170; 487400; 485660; 483950; 482280; 480630; 479010; 477420; 475850; 474310;
  472780; 471280; 469790; 468320; 466870; 465430; 464020; 462630; 461260; 459920; 458610; 457330;
  456090; 454870; 453690; 452540; 451430; 450340; 449290; 448260; 447270; 446310; 445370; 444460;
  443580; 442730; 441920; 441150; 440420; 439730; 439090; 438490; 437950; 437460; 437020; 436630;
  436280; 435980; 435710; 435480; 435280; 435110; 434960; 434840; 434740; 434670; 434620; 434600;
  434610; 434650; 434720; 434820; 434960; 435130; 435330; 435560; 435820; 436100; 436400; 436710;
  437050; 437390; 437740; 438100; 438470; 438830; 439190; 439550; 439900; 440230; 440550; 440860;
  441140; 441410; 441650; 441870; 442080; 442270; 442450; 442620; 442790; 442940; 443100; 443260;
  443420; 443590; 443770; 443970; 444190; 444430; 444710; 445020; 445370; 445760; 446190; 446660;
  447150; 447670; 448220; 448780; 449350; 449930; 450520; 451110; 451690; 452250; 452800; 453320;
  453800; 454240; 454640; 454980; 455260; 455470; 455630; 455720; 455770; 455770; 455740; 455670;
  455590; 455480; 455360; 455240; 455120; 454990; 454870; 454750; 454640; 454540; 454460; 454390;
  454330; 454300; 454290; 454300; 454320; 454360; 454410; 454480; 454560; 454650; 454750; 454850;
  454970; 455090; 455210; 455340; 455470; 455600; 455730; 455860; 455980; 456050; 456170; 456280;
  456400; 456520; 456630; 456750; 456860; 456980; 457090; 457210; 457320; 457440; 457560; 457670;
  457790; 457900; 458020; 458130; 458250; 458360; 458480; 458600; 458710; 458830; 458940; 459060;
  459170; 459290; 459410; 459520; 459640; 459750; 459870; 459980; 460100; 460220; 460330; 460450;
  460560; 460680; 460790; 460910; 461030; 461140; 461260; 461370; 461490; 461600; 461720; 461840;
  461950; 462070; 462180; 462300; 462410; 462530; 462650; 462760; 462880; 462990; 463110; 463230;
  463340; 463460; 463570; 463690; 463800; 463920; 464040; 464150; 464270; 464380; 464500; 464620;
  464730; 464850; 464960; 465080].

(** hpp:5076-5116 *)
Definition T_CES73 : list dec := table (-6) [
  161600; 165180; 168830; 172540; 176310; 180160; 184060; 188030; 192070; 196170; 200340; 204570;
  208870; 213240; 217670; 222170; 226730; 231360; 236060; 240820; 239980; 247840; 255080; 261770;
  267950; 273700; 279080; 284140; 288960; 293580; 298070; 302490; 306910; 311380; 315960; 320720;
  325720; 331010; 336670; 342740; 349300; 356380; 363970; 372010; 380460; 389270; 398420; 407840;
  417510; 427360; 437370; 447480; 457620; 467710; 477680; 487440; 496930; 506050; 514740; 522920;
  530510; 537440; 543740; 549420; 554510; 559040; 563040; 566520; 569530; 572080; 574190; 575910;
  577240; 578210; 578840; 579160; 579170; 578910; 578390; 577640; 576680; 575520; 574170; 572640;
  570940; 569070; 567040; 564850; 562520; 560030; 557410; 554660; 551800; 548830; 545780; 542670;
  539500; 536290; 533070; 529850; 526630; 523450; 520290; 517150; 514040; 510950; 507880; 504830;
  501790; 498770; 495750; 492750; 489740; 486720; 483680; 480590; 477460; 474260; 470990; 467630;
  464180; 460620; 456960; 453200; 449360; 445440; 441440; 437370; 433250; 429080; 424860; 420610;
  416310; 411990; 407630; 403230; 398800; 394340; 389850; 385330; 380780; 376200; 371590; 366970;
  362330; 357690; 353040; 348390; 343750; 339120; 334510; 329920; 325330; 320760; 316170; 311570;
  306940; 302270; 297550; 292780; 287940; 283030; 278050; 273010; 267930; 262810; 257660; 252500;
  247330; 242160; 237010; 231880; 226780; 221740; 216770; 211870; 207060; 202360; 197790; 193340;
  189050; 184910; 180940; 177120; 173450; 169940; 166580; 163370; 160300; 157380; 154590; 151950;
  149450; 147090; 144870; 142790; 140870; 139080; 137450; 135970; 134640; 133460; 132420; 131530;
  130760; 130120; 129600; 129200; 128900; 128690; 128580; 128550; 128600; 128720; 128910; 129140;
  129420; 129750; 130100; 130470; 130860; 131260; 131660; 132050; 132410; 132750; 133040; 133290;
  133480; 133600; 133640; 133600; 133480; 133290; 133030; 132710; 132340; 131920; 131470; 130980;
  130470; 129940; 129390; 128850; 128310; 127770; 127260; 126760; 126300; 125880; 125500; 125180;
  124910; 124690; 124550; 124470; 124460; 124520; 124670; 124890; 125200; 125610; 126100; 126670;
  127330; 128070; 128900; 129800; 130770; 131830; 132950; 134140; 135400; 136720; 138080; 139490;
  140940; 142410; 143910; 145420; 146950; 148480; 150010; 151540; 153080; 154620; 156160; 157700;
  159250; 160790; 162340; 163890; 165490; 167160; 168950; 170890; 173030; 175400; 178040; 180990;
  184280; 187950; 192000; 196390; 201120; 206170; 211520; 217150; 223060; 229220; 235610; 242230;
  249050; 256050; 263220; 270550; 278010; 285590; 293280; 301050; 308890; 316320; 324310; 332410;
  340600; 348900; 357280; 365750; 374310; 382950; 391660; 400440; 409280; 418180; 427140; 436150;
  445190; 454280; 463390; 472530; 481690; 490860; 500030; 509210; 518380; 527540; 536680; 545790;
  554880; 563920; 572930; 581880; 590790; 599630; 608410; 617120; 625760; 634310; 642780; 651170;
  659460; 667650; 675750; 683740; 691620; 699400; 707060; 714600; 722030; 729340; 736520; 743580;
  750520; 757330; 764010; 770570; 776990; 783290; 789450; 795490; 801400; 807170; 812820; 818340;
  823740; 829000; 834150; 839160; 844050; 848830; 853480; 858010; 862420; 866720; 870900; 874970;
  878930; 882790; 886530; 890170].

(** hpp:5117-5157 *)
Definition T_CES74 : list dec := table (-6) [
  33875; 34064; 34254; 34445; 34637; 34830; 35025; 35220; 35416; 35613; 35812; 36011; 36212; 36413;
  36616; 36820; 37024; 37230; 37437; 37645; 37827; 38052; 38275; 38496; 38715; 38932; 39148; 39364;
  39579; 39795; 40011; 40228; 40447; 40667; 40890; 41115; 41343; 41575; 41811; 42050; 42295; 42544;
  42799; 43059; 43326; 43599; 43879; 44166; 44461; 44764; 45075; 45394; 45724; 46064; 46416; 46782;
  47161; 47557; 47969; 48399; 48847; 49316; 49801; 50299; 50809; 51326; 51847; 52369; 52889; 53404;
  53911; 54406; 54887; 55353; 55800; 56227; 56631; 57011; 57364; 57689; 57981; 58242; 58470; 58669;
  58840; 58984; 59104; 59201; 59276; 59333; 59371; 59394; 59404; 59402; 59392; 59374; 59353; 59330;
  59307; 59287; 59272; 59264; 59259; 59253; 59244; 59226; 59195; 59149; 59083; 58993; 58875; 58726;
  58548; 58342; 58110; 57854; 57577; 57281; 56966; 56637; 56294; 55939; 55577; 55211; 54843; 54478;
  54120; 53771; 53436; 53117; 52819; 52543; 52290; 52057; 51842; 51643; 51460; 51289; 51128; 50977;
  50833; 50694; 50557; 50419; 50276; 50126; 49965; 49789; 49597; 49383; 49145; 48882; 48595; 48289;
  47969; 47638; 47300; 46960; 46622; 46290; 45968; 45660; 45370; 45099; 44850; 44627; 44431; 44266;
  44135; 44039; 43982; 43967; 43991; 44054; 44154; 44291; 44463; 44668; 44905; 45174; 45472; 45797;
  46144; 46504; 46873; 47241; 47603; 47952; 48280; 48581; 48847; 49074; 49259; 49404; 49510; 49577;
  49605; 49595; 49548; 49464; 49344; 49189; 49002; 48788; 48551; 48294; 48022; 47738; 47448; 47154;
  46862; 46574; 46293; 46020; 45757; 45505; 45267; 45044; 44837; 44648; 44479; 44331; 44203; 44094;
  44004; 43931; 43874; 43831; 43803; 43788; 43784; 43791; 43807; 43831; 43860; 43895; 43932; 43971;
  44010; 44047; 44082; 44112; 44138; 44161; 44181; 44199; 44215; 44231; 44247; 44263; 44280; 44300;
  44322; 44349; 44382; 44422; 44471; 44529; 44599; 44681; 44777; 44888; 45018; 45169; 45344; 45545;
  45777; 46041; 46341; 46680; 47060; 47485; 47955; 48472; 49037; 49652; 50318; 51036; 51807; 52632;
  53514; 54453; 55455; 56525; 57670; 58895; 60205; 61607; 63107; 64709; 66421; 68246; 70189; 72253;
  74440; 76755; 79200; 81779; 84495; 87350; 90348; 93492; 96787; 100240; 103840; 107620; 111550;
  115660; 119950; 124420; 129070; 133910; 138940; 144170; 149600; 155240; 161080; 167140; 173420;
  179920; 186650; 192590; 199380; 206350; 213500; 220830; 228340; 236020; 243880; 251920; 260130;
  268520; 277070; 285790; 294670; 303710; 312900; 322240; 331730; 341350; 351110; 361000; 371000;
  381120; 391340; 401650; 412060; 422540; 433090; 443710; 454370; 465080; 475820; 486580; 497360;
  508130; 518900; 529660; 540380; 551070; 561710; 572290; 582810; 593260; 603620; 613880; 624050;
  634110; 644050; 653880; 663570; 673120; 682540; 691800; 700920; 709880; 718680; 727310; 735780;
  744070; 752200; 760140; 767920; 775510; 782930; 790160; 797220; 804100; 810810; 817330; 823680;
  829850; 835860; 841690; 847350; 852840; 858170; 863340; 868340; 873190].

(** hpp:5158-5198 *)
Definition T_CES75 : list dec := table (-6) [
  29193; 30018; 30865; 31736; 32631; 33549; 34493; 35463; 36458; 37481; 38531; 39609; 40716; 41853;
  43020; 44218; 45447; 46710; 48005; 49335; 50900; 51980; 53339; 54933; 56720; 58657; 60701; 62810;
  64942; 67052; 69100; 71052; 72915; 74706; 76444; 78145; 79826; 81505; 83198; 84924; 86700; 88539;
  90442; 92405; 94426; 96502; 98630; 100810; 103030; 105290; 107600; 109940; 112320; 114720; 117160;
  119620; 122100; 124610; 127120; 129660; 132200; 134750; 137320; 139900; 142490; 145120; 147760;
  150440; 153160; 155910; 158700; 161540; 164400; 167290; 170180; 173070; 175930; 178760; 181540;
  184260; 186900; 189450; 191900; 194230; 196410; 198430; 200270; 201920; 203350; 204550; 205500;
  206190; 206610; 206770; 206690; 206360; 205780; 204980; 203940; 202680; 201200; 199510; 197620;
  195560; 193320; 190940; 188430; 185810; 183080; 180270; 177400; 174470; 171500; 168490; 165430;
  162340; 159220; 156070; 152900; 149710; 146500; 143280; 140050; 136830; 133610; 130400; 127220;
  124060; 120930; 117840; 114800; 111810; 108880; 106020; 103240; 100540; 97933; 95428; 93032;
  90753; 88600; 86578; 84685; 82915; 81265; 79729; 78303; 76982; 75761; 74635; 73600; 72649; 71773;
  70958; 70194; 69468; 68769; 68084; 67402; 66712; 66000; 65258; 64484; 63678; 62841; 61974; 61076;
  60150; 59195; 58211; 57200; 56163; 55105; 54034; 52955; 51875; 50802; 49741; 48699; 47683; 46700;
  45756; 44860; 44021; 43248; 42550; 41937; 41416; 40996; 40688; 40500; 40439; 40505; 40696; 41011;
  41448; 42005; 42680; 43473; 44380; 45400; 46527; 47736; 48997; 50281; 51558; 52798; 53972; 55050;
  56003; 56800; 57419; 57862; 58140; 58260; 58232; 58066; 57770; 57354; 56828; 56200; 55481; 54684;
  53824; 52917; 51977; 51018; 50057; 49106; 48183; 47300; 46471; 45696; 44975; 44305; 43686; 43116;
  42594; 42118; 41687; 41300; 40955; 40650; 40385; 40157; 39965; 39809; 39685; 39594; 39532; 39500;
  39495; 39515; 39557; 39620; 39702; 39799; 39910; 40031; 40162; 40300; 40443; 40594; 40758; 40939;
  41140; 41366; 41621; 41909; 42234; 42600; 43011; 43471; 43982; 44549; 45175; 45862; 46615; 47437;
  48331; 49300; 50347; 51469; 52663; 53924; 55249; 56634; 58075; 59569; 61112; 62700; 64329; 65994;
  67691; 69413; 71156; 72914; 74683; 76457; 78231; 80000; 81761; 83519; 85282; 87058; 88853; 90677;
  92536; 94437; 96390; 98400; 100470; 102570; 104660; 106700; 108670; 110520; 112210; 113710;
  114990; 116000; 117660; 119090; 120530; 121990; 123460; 124950; 126450; 127970; 129510; 131060;
  132620; 134200; 135800; 137410; 139040; 140690; 142350; 144030; 145720; 147430; 149160; 150900;
  152660; 154440; 156230; 158050; 159870; 161720; 163580; 165460; 167360; 169270; 171200; 173150;
  175120; 177100; 179110; 181130; 183160; 185220; 187290; 189380; 191490; 193620; 195760; 197920;
  200100; 202300; 204520; 206750; 209000; 211270; 213560; 215870; 218190; 220530; 222890; 225270;
  227660; 230080; 232510; 234960; 237430; 239910; 242410; 244930; 247470; 250030; 252600; 255190;
  257800; 260420; 263070; 265730; 268400; 271100; 273810; 276540; 279280].

(** hpp:5199-5239 *)
Definition T_CES76 : list dec := table (-6) [
  211990; 215410; 218880; 222380; 225930; 229510; 233130; 236800; 240500; 244240; 248030; 251850;
  255710; 259610; 263540; 267520; 271530; 275580; 279670; 283790; 288600; 291780; 295760; 300400;
  305560; 311110; 316890; 322770; 328610; 334270; 339600; 344500; 348990; 353140; 357010; 360660;
  364150; 367530; 370880; 374250; 377700; 381280; 385000; 388820; 392750; 396750; 400830; 404960;
  409120; 413310; 417500; 421680; 425850; 429980; 434060; 438080; 442020; 445880; 449640; 453280;
  456800; 460180; 463400; 466440; 469290; 471920; 474320; 476460; 478340; 479920; 481200; 482150;
  482790; 483130; 483170; 482930; 482420; 481650; 480630; 479380; 477900; 476210; 474320; 472260;
  470030; 467660; 465170; 462570; 459880; 457120; 454300; 451440; 448550; 445610; 442630; 439590;
  436510; 433370; 430180; 426920; 423600; 420220; 416760; 413250; 409670; 406030; 402320; 398560;
  394730; 390850; 386900; 382900; 378830; 374690; 370490; 366210; 361840; 357400; 352860; 348230;
  343500; 338670; 333740; 328730; 323640; 318480; 313260; 307980; 302650; 297290; 291900; 286490;
  281070; 275680; 270330; 265030; 259820; 254710; 249730; 244880; 240200; 235700; 231370; 227200;
  223180; 219290; 215540; 211890; 208340; 204880; 201500; 198180; 194910; 191670; 188440; 185210;
  181960; 178670; 175320; 171910; 168400; 164790; 161080; 157270; 153350; 149350; 145250; 141070;
  136790; 132440; 128000; 123490; 118930; 114330; 109730; 105160; 100620; 96153; 91778; 87519;
  83400; 79445; 75672; 72100; 68746; 65627; 62763; 60170; 57867; 55871; 54200; 52870; 51885; 51249;
  50965; 51035; 51462; 52249; 53399; 54915; 56800; 59047; 61612; 64441; 67483; 70683; 73989; 77347;
  80703; 84005; 87200; 90241; 93109; 95795; 98285; 100570; 102640; 104470; 106070; 107420; 108500;
  109320; 109890; 110250; 110430; 110450; 110360; 110180; 109940; 109670; 109400; 109160; 108960;
  108790; 108660; 108570; 108510; 108500; 108520; 108590; 108700; 108850; 109050; 109280; 109550;
  109860; 110210; 110580; 110990; 111430; 111900; 112400; 112930; 113500; 114120; 114810; 115560;
  116390; 117300; 118300; 119400; 120610; 121920; 123340; 124850; 126460; 128160; 129940; 131820;
  133770; 135800; 137900; 140060; 142270; 144490; 146720; 148950; 151140; 153300; 155390; 157400;
  159320; 161130; 162820; 164380; 165790; 167050; 168130; 169020; 169720; 170200; 170470; 170520;
  170390; 170090; 169640; 169050; 168340; 167540; 166650; 165700; 164700; 163640; 162500; 161270;
  159940; 158490; 156910; 155170; 153280; 151200; 148940; 146550; 144090; 141610; 139170; 136840;
  134660; 132710; 131040; 129700; 127700; 125980; 124280; 122600; 120950; 119310; 117690; 116090;
  114500; 112940; 111400; 109870; 108360; 106870; 105400; 103950; 102510; 101100; 99695; 98312;
  96946; 95596; 94264; 92948; 91649; 90366; 89100; 87849; 86614; 85395; 84192; 83004; 81831; 80673;
  79531; 78403; 77290; 76191; 75106; 74036; 72980; 71938; 70909; 69895; 68893; 67905; 66930; 65968;
  65019; 64082; 63159; 62247; 61348; 60461; 59586; 58723; 57872; 57032; 56204; 55387; 54581; 53786;
  53002; 52229; 51467; 50715; 49974; 49243; 48522; 47811; 47110; 46418; 45737; 45065; 44402; 43749;
  43105; 42469; 41843].

(** hpp:5240-5280 *)
Definition T_CES77 : list dec := table (-6) [
  28048; 29636; 30644; 31716; 33095; 35374; 38409; 41975; 45803; 49918; 54221; 58601; 63164; 67928;
  72997; 78300; 83754; 89247; 94851; 100429; 105929; 110653; 115484; 120416; 125438; 130460; 135439;
  140408; 145471; 150663; 155909; 161138; 166309; 171404; 176431; 181404; 186392; 191397; 196365;
  201203; 205860; 210364; 214749; 219038; 223237; 227350; 231406; 235411; 239248; 242941; 246491;
  249887; 253170; 256342; 259408; 262339; 265047; 267509; 269804; 272095; 274254; 276187; 277968;
  279676; 281415; 283126; 284764; 286389; 287955; 289360; 290615; 291725; 292714; 293622; 294353;
  294800; 295042; 295204; 295292; 295278; 295171; 294927; 294596; 294248; 293806; 293265; 292636;
  291842; 290888; 289879; 288751; 287494; 286152; 284753; 283292; 281756; 280152; 278521; 276920;
  275235; 273344; 271420; 269572; 267697; 265678; 263461; 261109; 258736; 256338; 253889; 251406;
  248796; 246147; 243468; 240740; 238093; 235597; 233172; 230644; 228009; 225347; 222715; 220238;
  217823; 215384; 212966; 210551; 208133; 205734; 203358; 200979; 198636; 196339; 194047; 191716;
  189335; 186942; 184556; 182180; 179816; 177495; 175235; 172945; 170624; 168293; 165978; 163678;
  161394; 159147; 156940; 154781; 152678; 150625; 148603; 146599; 144639; 142720; 140838; 138990;
  137160; 135341; 133527; 131706; 129894; 128098; 126321; 124534; 122739; 120943; 119139; 117338;
  115547; 113774; 112044; 110347; 108700; 107081; 105515; 103996; 102540; 101133; 99788; 98497;
  97258; 96071; 94913; 93783; 92708; 91654; 90658; 89671; 88729; 87813; 86936; 86091; 85258; 84467;
  83713; 82988; 82331; 81693; 81119; 80567; 80059; 79579; 79136; 78750; 78403; 78109; 77860; 77643;
  77463; 77294; 77190; 77107; 77073; 77070; 77102; 77154; 77216; 77304; 77422; 77565; 77766; 77987;
  78251; 78553; 78919; 79302; 79750; 80234; 80781; 81388; 82056; 82779; 83572; 84460; 85425; 86461;
  87624; 88856; 90208; 91657; 93221; 94951; 96814; 98804; 100895; 103096; 105410; 107842; 110433;
  113158; 116034; 119055; 122160; 125408; 128794; 132327; 136042; 139918; 143925; 148079; 152382;
  156798; 161328; 166002; 170765; 175649; 180657; 185741; 190912; 196131; 201379; 206639; 211931;
  217258; 222593; 227972; 233377; 238768; 244108; 249364; 254606; 259816; 264961; 269996; 274886;
  279626; 284172; 288517; 292634; 296597; 300432; 304092; 307370; 310359; 313562; 316648; 319661;
  322488; 324876; 327081; 329079; 330870; 332473; 333919; 335155; 336239; 337125; 337817; 338346;
  338703; 338919; 339003; 338975; 338805; 338483; 338036; 337425; 336668; 335771; 334793; 333760;
  332598; 331333; 329946; 328513; 327074; 325634; 324248; 322923; 321682; 320432; 319149; 317879;
  316795; 315878; 314556; 313161; 311652; 310112; 308814; 307519; 306227; 304938; 303651; 302369;
  301089; 299812; 298538; 297267; 296000; 294735; 293474; 292216; 290961; 289710; 288461; 287216;
  285973; 284735; 283499; 282267; 281038; 279812; 278589; 277370; 276154; 274941; 273732; 272526;
  271323; 270124; 268928; 267735; 266546; 265360; 264177; 262998; 261822; 260627; 259436; 258250;
  257068; 255891; 254718; 253550; 252386; 251227; 250073; 248923; 247778; 246637; 245501; 244369;
  243242; 242120; 241002; 239890].

(** hpp:5281-5321 *)
Definition T_CES78 : list dec := table (-6) [
  129470; 131840; 134240; 136680; 139150; 141670; 144220; 146810; 149440; 152100; 154810; 157560;
  160340; 163160; 166030; 168930; 171880; 174860; 177890; 180950; 181200; 185940; 190320; 194380;
  198170; 201720; 205090; 208310; 211430; 214500; 217540; 220620; 223770; 227040; 230460; 234080;
  237960; 242120; 246610; 251480; 256760; 262500; 268670; 275230; 282150; 289400; 296950; 304760;
  312810; 321040; 329440; 337970; 346560; 355150; 363670; 372060; 380260; 388190; 395800; 403010;
  409770; 416010; 421730; 426910; 431560; 435670; 439220; 442230; 444680; 446570; 447900; 448660;
  448870; 448570; 447790; 446540; 444860; 442780; 440330; 437520; 434390; 430970; 427280; 423320;
  419130; 414720; 410110; 405320; 400350; 395250; 390010; 384660; 379230; 373740; 368200; 362650;
  357110; 351600; 346150; 340770; 335500; 330350; 325330; 320430; 315650; 310990; 306450; 302030;
  297720; 293520; 289430; 285450; 281560; 277740; 273990; 270270; 266580; 262890; 259190; 255470;
  251700; 247870; 244000; 240090; 236140; 232190; 228230; 224280; 220340; 216440; 212580; 208770;
  205030; 201350; 197740; 194210; 190770; 187430; 184190; 181050; 178030; 175120; 172330; 169650;
  167070; 164580; 162180; 159850; 157610; 155420; 153300; 151230; 149210; 147200; 145220; 143230;
  141230; 139210; 137140; 135030; 132850; 130600; 128280; 125890; 123460; 120980; 118470; 115930;
  113370; 110800; 108230; 105660; 103120; 100600; 98122; 95695; 93329; 91035; 88824; 86707; 84694;
  82796; 81011; 79340; 77780; 76331; 74990; 73758; 72632; 71611; 70694; 69880; 69169; 68561; 68057;
  67656; 67359; 67167; 67080; 67097; 67219; 67446; 67775; 68199; 68715; 69318; 70003; 70766; 71602;
  72506; 73475; 74501; 75577; 76692; 77838; 79003; 80180; 81356; 82524; 83673; 84794; 85876; 86912;
  87893; 88812; 89659; 90427; 91107; 91691; 92171; 92538; 92788; 92925; 92958; 92894; 92743; 92511;
  92208; 91841; 91419; 90950; 90441; 89903; 89343; 88771; 88196; 87627; 87072; 86542; 86044; 85588;
  85182; 84831; 84539; 84310; 84148; 84058; 84044; 84109; 84259; 84496; 84824; 85242; 85748; 86339;
  87013; 87767; 88600; 89509; 90491; 91545; 92668; 93854; 95098; 96393; 97736; 99119; 100540;
  101990; 103460; 104950; 106450; 107970; 109490; 111020; 112560; 114100; 115640; 117170; 118710;
  120240; 121770; 123330; 124940; 126660; 128500; 130500; 132690; 135120; 137810; 140790; 144100;
  147730; 151660; 155880; 160390; 165170; 170210; 175500; 181020; 186760; 192720; 198880; 205220;
  211740; 218420; 225260; 232230; 239340; 246560; 253880; 261040; 268630; 276350; 284210; 292200;
  300320; 308570; 316940; 325440; 334050; 342770; 351600; 360530; 369560; 378680; 387890; 397180;
  406550; 415980; 425470; 435020; 444620; 454260; 463940; 473640; 483360; 493090; 502830; 512570;
  522300; 532010; 541700; 551350; 560970; 570540; 580060; 589520; 598910; 608230; 617470; 626630;
  635700; 644680; 653550; 662320; 670980; 679520; 687940; 696240; 704420; 712470; 720380; 728160;
  735800; 743310; 750670; 757890; 764970; 771900; 778690; 785330; 791820; 798170; 804380; 810430;
  816350; 822120; 827740; 833230; 838570; 843770; 848840; 853770; 858570; 863230; 867770; 872180;
  876460; 880610].

(** hpp:5322-5362 *)
Definition T_CES79 : list dec := table (-6) [
  567490; 569710; 571930; 574150; 576360; 578570; 580770; 582970; 585170; 587370; 589560; 591750;
  593930; 596110; 598290; 600460; 602630; 604800; 606960; 609120; 606620; 610970; 614880; 618370;
  621470; 624220; 626630; 628740; 630570; 632160; 633530; 634700; 635710; 636590; 637360; 638050;
  638680; 639300; 639910; 640560; 641270; 642060; 642920; 643830; 644790; 645760; 646730; 647690;
  648610; 649490; 650310; 651040; 651680; 652210; 652640; 652950; 653130; 653180; 653070; 652810;
  652390; 651800; 651070; 650230; 649320; 648370; 647410; 646470; 645600; 644810; 644150; 643640;
  643280; 643050; 642960; 642970; 643100; 643320; 643620; 644000; 644450; 644940; 645460; 645970;
  646440; 646840; 647150; 647320; 647320; 647140; 646730; 646080; 645180; 644060; 642720; 641190;
  639470; 637580; 635540; 633360; 631040; 628620; 626070; 623420; 620660; 617780; 614790; 611700;
  608490; 605180; 601760; 598230; 594610; 590900; 587130; 583300; 579420; 575520; 571590; 567660;
  563730; 559820; 555930; 552070; 548230; 544430; 540660; 536930; 533240; 529600; 526000; 522460;
  518960; 515490; 512050; 508630; 505220; 501800; 498370; 494930; 491450; 487940; 484410; 480850;
  477280; 473700; 470120; 466560; 463010; 459490; 456010; 452560; 449160; 445810; 442520; 439280;
  436090; 432980; 429930; 426950; 424040; 421210; 418460; 415780; 413180; 410660; 408220; 405860;
  403570; 401350; 399220; 397160; 395170; 393250; 391400; 389610; 387880; 386200; 384570; 382990;
  381450; 379940; 378470; 377030; 375610; 374200; 372800; 371400; 370000; 368580; 367150; 365700;
  364240; 362790; 361350; 359950; 358600; 357310; 356090; 354970; 353940; 353040; 352250; 351580;
  351030; 350600; 350280; 350080; 350000; 350030; 350170; 350430; 350800; 351270; 351830; 352470;
  353200; 353990; 354850; 355760; 356720; 357730; 358770; 359840; 360940; 362070; 363220; 364390;
  365560; 366750; 367940; 369140; 370340; 371560; 372800; 374080; 375390; 376740; 378150; 379610;
  381150; 382760; 384460; 386280; 388240; 390350; 392640; 395130; 397840; 400780; 403980; 407460;
  411220; 415260; 419570; 424150; 429010; 434140; 439540; 445210; 451140; 457340; 463800; 470500;
  477440; 484600; 491980; 499560; 507330; 515290; 523420; 531710; 540130; 548650; 557230; 565830;
  574430; 583000; 591480; 599870; 608110; 616180; 624070; 631760; 639240; 646500; 653530; 660320;
  666850; 673110; 679100; 684800; 690220; 695380; 700290; 704960; 709400; 713630; 717660; 721500;
  725160; 728670; 732020; 735240; 738340; 741340; 744250; 747080; 749840; 752560; 755250; 757920;
  760580; 763250; 765950; 768680; 771470; 774330; 777270; 780300; 783440; 785090; 787670; 790220;
  792750; 795250; 797740; 800200; 802640; 805050; 807450; 809820; 812170; 814500; 816800; 819080;
  821340; 823580; 825790; 827990; 830160; 832310; 834440; 836540; 838630; 840690; 842730; 844750;
  846750; 848730; 850690; 852620; 854540; 856430; 858310; 860160; 861990; 863810; 865600; 867370;
  869130; 870860; 872570; 874270; 875940; 877600; 879230; 880850; 882450; 884030; 885590; 887140;
  888660; 890170; 891660; 893130; 894580; 896020; 897440; 898840; 900230; 901590; 902950; 904280;
  905600; 906900; 908190; 909460; 910710; 911950; 913170; 914380; 915570; 916750; 917910; 919060;
  920190; 921310; 922410; 923500].

(** hpp:5363-5403 *)
Definition T_CES80 : list dec := table (-6) [
  316840; 322680; 328320; 333790; 339120; 344330; 349450; 354530; 359580; 364630; 369720; 374870;
  380080; 385340; 390640; 395990; 401380; 406790; 412220; 417680; 423140; 428610; 434070; 439500;
  444900; 450250; 455530; 460740; 465850; 470860; 475750; 480510; 485130; 489630; 493990; 498230;
  502340; 506320; 510170; 513900; 517510; 521000; 524360; 527610; 530750; 533770; 536690; 539500;
  542210; 544820; 547330; 549750; 552070; 554300; 556440; 558470; 560410; 562260; 564000; 565650;
  567200; 568650; 569990; 571240; 572370; 573400; 574320; 575120; 575810; 576380; 576830; 577160;
  577360; 577450; 577400; 577230; 576930; 576500; 575930; 575240; 574410; 573450; 572340; 571090;
  569700; 568150; 566450; 564590; 562560; 560370; 558010; 555470; 552760; 549880; 546820; 543600;
  540200; 536640; 532920; 529020; 524970; 520760; 516390; 511900; 507280; 502560; 497740; 492840;
  487870; 482860; 477800; 472720; 467620; 462510; 457400; 452290; 447210; 442150; 437120; 432140;
  427200; 422320; 417500; 412750; 408060; 403440; 398880; 394400; 389990; 385660; 381400; 377220;
  373120; 369100; 365150; 361270; 357470; 353730; 350050; 346440; 342890; 339400; 335970; 332620;
  329330; 326120; 322990; 319950; 317000; 314140; 311380; 308720; 306160; 303690; 301320; 299030;
  296830; 294700; 292660; 290680; 288770; 286930; 285150; 283430; 281790; 280210; 278690; 277250;
  275870; 274570; 273330; 272160; 271070; 270040; 269090; 268200; 267380; 266630; 265950; 265340;
  264790; 264310; 263900; 263550; 263280; 263070; 262930; 262850; 262850; 262910; 263040; 263240;
  263500; 263820; 264200; 264620; 265080; 265590; 266130; 266690; 267280; 267890; 268520; 269160;
  269830; 270520; 271240; 271980; 272750; 273550; 274370; 275220; 276110; 277010; 277940; 278900;
  279870; 280860; 281860; 282870; 283900; 284940; 285980; 287040; 288120; 289210; 290330; 291480;
  292650; 293850; 295080; 296350; 297650; 298990; 300370; 301780; 303230; 304720; 306230; 307790;
  309380; 311010; 312670; 314390; 316150; 317960; 319840; 321780; 323780; 325860; 328020; 330260;
  332580; 334980; 337470; 340040; 342700; 345440; 348260; 351170; 354160; 357240; 360410; 363670;
  367020; 370480; 374050; 377720; 381510; 385410; 389430; 393580; 397840; 402230; 406720; 411330;
  416040; 420850; 425760; 430770; 435860; 441040; 446300; 451650; 457080; 462600; 468190; 473860;
  479610; 485440; 491340; 497320; 503370; 509490; 515690; 521960; 528300; 534710; 541190; 547730;
  554350; 561030; 567760; 574540; 581340; 588150; 594960; 601750; 608520; 615240; 621910; 628510;
  635040; 641490; 647880; 654190; 660430; 666590; 672680; 678690; 684630; 690490; 696260; 701940;
  707520; 712990; 718350; 723570; 728670; 733620; 738430; 743080; 747590; 751950; 756180; 760290;
  764280; 768170; 771960; 775650; 779270; 782810; 786270; 789660; 792950; 796150; 799250; 802260;
  805150; 807940; 810610; 813160; 815610; 817950; 820220; 822410; 824530; 826610; 828650; 830670;
  832670; 834660; 836630; 838540; 840380; 842110; 843720; 845180; 846460; 847540; 848390; 849000;
  849390; 849600; 849640; 849570; 849390; 849160; 848890; 848630; 848390; 848210; 848090; 848020;
  847990; 848000; 848040; 848100; 848190; 848290; 848390; 848490; 848590; 848680; 848740; 848780;
  848790; 848760; 848690; 848570].

(** hpp:5404-5444 *)
Definition T_CES81 : list dec := table (-6) [
  120670; 131180; 141180; 152590; 164170; 176020; 187220; 199450; 211100; 222000; 232980; 242680;
  251120; 259720; 267250; 274470; 281400; 288430; 294010; 299480; 304420; 308950; 313560; 317470;
  320710; 323570; 326750; 329860; 332420; 335020; 336820; 338770; 340590; 341930; 343520; 345010;
  346320; 346650; 346590; 347020; 347630; 348340; 348400; 348590; 349460; 350690; 352120; 352870;
  353690; 354780; 355000; 354680; 354280; 354340; 354210; 352710; 351000; 349390; 348480; 347200;
  345190; 344070; 342980; 341420; 339610; 338140; 337690; 337120; 336220; 334680; 333350; 332490;
  330730; 328930; 327460; 325850; 323600; 321110; 318460; 315730; 313430; 311260; 309130; 307180;
  305510; 302960; 301300; 299910; 297990; 295800; 293430; 290730; 287910; 285030; 282340; 279070;
  276630; 272930; 268700; 265050; 261790; 258710; 255830; 252790; 249640; 246440; 243440; 239990;
  236830; 233390; 230070; 227110; 224360; 221760; 219180; 216520; 213820; 210880; 208180; 205540;
  203560; 201230; 198760; 196060; 193030; 189940; 186950; 184030; 181060; 177910; 174810; 171830;
  169010; 165340; 161710; 158380; 155090; 151550; 147710; 144160; 140460; 136570; 132730; 129020;
  125990; 123150; 120250; 117300; 114570; 112480; 110690; 109470; 108550; 107620; 106900; 106180;
  105350; 104460; 104080; 103800; 103100; 102510; 102070; 101670; 100970; 99973; 99195; 98641;
  98719; 98215; 97486; 96614; 95262; 93774; 92362; 91213; 89899; 88341; 86642; 84249; 82113; 80282;
  78914; 77949; 76426; 74395; 72563; 71100; 69971; 68740; 67994; 67429; 67089; 66726; 66693; 67378;
  68152; 68785; 69414; 70249; 71705; 73490; 75620; 77706; 79242; 81241; 83152; 84934; 86570; 88421;
  90241; 91636; 92684; 93529; 94517; 96300; 97743; 98657; 99700; 101020; 102330; 103420; 104230;
  104550; 105120; 105170; 104520; 103220; 101900; 101140; 100100; 98970; 97916; 97323; 96479; 95355;
  94920; 95497; 96479; 98077; 99781; 101520; 104490; 107120; 109660; 113680; 116940; 120710; 124770;
  128830; 132970; 137500; 144020; 149500; 155350; 161670; 167590; 174540; 181700; 188800; 196160;
  204360; 212650; 219980; 228610; 238980; 249540; 260170; 271000; 281850; 291730; 302970; 314030;
  324840; 335000; 343450; 350870; 358250; 365260; 371920; 378350; 386170; 392150; 396790; 400290;
  404030; 408800; 413240; 417090; 420990; 424720; 427290; 428390; 429690; 432540; 436000; 438770;
  440960; 442970; 444770; 446740; 448850; 450910; 453060; 454990; 455910; 456710; 458110; 459470;
  460260; 460760; 461060; 461630; 462620; 463320; 461650; 463520; 469320; 470430; 465310; 465310;
  468510; 469240; 469980; 470710; 471450; 472180; 472920; 473660; 474390; 475130; 475870; 476600;
  477340; 478070; 478810; 479550; 480280; 481020; 481760; 482500; 483230; 483970; 484710; 485450;
  486180; 486920; 487660; 488400; 489130; 489870; 490610; 491350; 492080; 492820; 493560; 494300;
  495040; 495770; 496510; 497250; 497990; 498730; 499460; 500200; 500940; 501680; 502420; 503150;
  503890; 504630; 505370; 506110; 506840; 507580; 508320; 509060; 509800; 510530; 511270; 512010;
  512750; 513480; 514220; 514960; 515700; 516430; 517170; 517910; 518650; 519380; 520120; 520860;
  521590; 522330; 523070; 523800; 524540; 525280; 526010].

(** hpp:5445-5485 *)
Definition T_CES82 : list dec := table (-6) [
  707720; 709190; 710650; 712120; 713570; 715030; 716470; 717920; 719360; 720790; 722220; 723640;
  725070; 726480; 727890; 729300; 730700; 732100; 733500; 734880; 736500; 737520; 738800; 740300;
  741970; 743770; 745650; 747580; 749510; 751400; 753200; 754880; 756440; 757910; 759280; 760590;
  761850; 763060; 764240; 765420; 766600; 767800; 769000; 770210; 771410; 772590; 773740; 774860;
  775930; 776950; 777900; 778780; 779600; 780350; 781060; 781710; 782330; 782900; 783460; 783990;
  784500; 785000; 785490; 785960; 786410; 786820; 787190; 787520; 787810; 788030; 788200; 788300;
  788340; 788310; 788210; 788040; 787810; 787510; 787140; 786700; 786200; 785630; 784980; 784270;
  783480; 782610; 781670; 780650; 779550; 778370; 777100; 775750; 774320; 772820; 771260; 769640;
  767980; 766270; 764540; 762780; 761000; 759210; 757410; 755590; 753740; 751860; 749950; 747990;
  745980; 743920; 741800; 739620; 737380; 735090; 732780; 730440; 728090; 725740; 723400; 721090;
  718800; 716550; 714350; 712180; 710050; 707960; 705890; 703860; 701850; 699860; 697900; 695960;
  694030; 692120; 690230; 688340; 686470; 684590; 682730; 680860; 679000; 677130; 675270; 673430;
  671600; 669800; 668040; 666320; 664650; 663040; 661500; 660030; 658630; 657310; 656040; 654840;
  653710; 652630; 651600; 650620; 649700; 648820; 648000; 647230; 646520; 645870; 645300; 644800;
  644380; 644050; 643800; 643650; 643580; 643590; 643670; 643810; 644000; 644230; 644500; 644790;
  645100; 645420; 645750; 646080; 646410; 646740; 647070; 647390; 647710; 648010; 648300; 648570;
  648840; 649090; 649330; 649560; 649790; 650020; 650240; 650470; 650700; 650940; 651180; 651440;
  651710; 652000; 652310; 652640; 653000; 653390; 653800; 654250; 654720; 655220; 655750; 656290;
  656840; 657400; 657970; 658530; 659100; 659660; 660210; 660740; 661270; 661770; 662250; 662710;
  663140; 663530; 663900; 664230; 664530; 664800; 665050; 665280; 665500; 665700; 665900; 666100;
  666300; 666510; 666720; 666940; 667160; 667370; 667590; 667800; 668010; 668210; 668400; 668580;
  668780; 669010; 669290; 669660; 670130; 670730; 671470; 672390; 673500; 674820; 676350; 678070;
  679960; 682010; 684210; 686540; 689000; 691550; 694200; 696930; 699740; 702630; 705620; 708710;
  711900; 715200; 718610; 722140; 725800; 729580; 733490; 737510; 741650; 745880; 750220; 754640;
  759150; 763740; 768400; 773120; 777880; 782650; 787410; 792130; 796780; 801340; 805780; 810080;
  814200; 818130; 821900; 825540; 829070; 832530; 835950; 839370; 842810; 846310; 849900; 853590;
  857340; 861080; 864740; 868260; 871570; 874600; 877300; 879590; 881400; 884130; 886440; 888720;
  890950; 893150; 895300; 897420; 899500; 901540; 903550; 905520; 907450; 909350; 911210; 913040;
  914830; 916590; 918320; 920010; 921670; 923300; 924900; 926470; 928010; 929520; 930990; 932440;
  933870; 935260; 936630; 937970; 939280; 940570; 941830; 943070; 944280; 945470; 946630; 947770;
  948890; 949980; 951050; 952100; 953130; 954140; 955130; 956090; 957040; 957970; 958880; 959770;
  960640; 961490; 962330; 963140; 963950; 964730; 965500; 966250; 966980; 967700; 968410; 969100;
  969770; 970440; 971080; 971720; 972340; 972940; 973540; 974120; 974690; 975240; 975790; 976320;
  976840; 977350; 977850; 978340].

(** hpp:5486-5526 *)
Definition T_CES83 : list dec := table (-6) [
  563490; 565110; 566720; 568330; 569940; 571540; 573150; 574750; 576360; 577960; 579560; 581150;
  582750; 584350; 585940; 587530; 589120; 590700; 592290; 593870; 595700; 596890; 598380; 600090;
  601980; 603960; 605980; 607980; 609890; 611650; 613200; 614490; 615520; 616330; 616950; 617390;
  617690; 617880; 617970; 618010; 618000; 617980; 617940; 617870; 617770; 617620; 617420; 617150;
  616820; 616400; 615900; 615300; 614620; 613860; 613030; 612130; 611190; 610210; 609190; 608150;
  607100; 606040; 604960; 603860; 602710; 601520; 600270; 598940; 597520; 596020; 594400; 592670;
  590830; 588900; 586870; 584780; 582620; 580420; 578170; 575890; 573600; 571300; 568970; 566610;
  564200; 561730; 559180; 556530; 553780; 550910; 547900; 544750; 541470; 538090; 534630; 531110;
  527570; 524030; 520500; 517020; 513600; 510270; 507020; 503850; 500730; 497660; 494630; 491630;
  488650; 485680; 482700; 479710; 476710; 473710; 470710; 467710; 464730; 461760; 458810; 455890;
  453000; 450140; 447330; 444560; 441830; 439160; 436540; 433980; 431490; 429060; 426700; 424410;
  422200; 420050; 417960; 415920; 413940; 412000; 410100; 408230; 406400; 404590; 402820; 401070;
  399360; 397690; 396050; 394470; 392930; 391440; 390000; 388620; 387300; 386050; 384880; 383780;
  382770; 381850; 381030; 380310; 379700; 379200; 378810; 378510; 378300; 378170; 378100; 378090;
  378120; 378200; 378300; 378420; 378580; 378760; 379000; 379280; 379630; 380050; 380540; 381120;
  381800; 382580; 383440; 384390; 385390; 386430; 387510; 388600; 389680; 390760; 391800; 392800;
  393760; 394670; 395550; 396390; 397200; 397970; 398710; 399420; 400100; 400760; 401390; 401990;
  402550; 403090; 403590; 404050; 404480; 404860; 405200; 405500; 405750; 405970; 406150; 406300;
  406420; 406520; 406600; 406660; 406700; 406730; 406750; 406760; 406750; 406720; 406660; 406590;
  406490; 406360; 406200; 406010; 405790; 405550; 405280; 404990; 404680; 404350; 404010; 403660;
  403300; 402930; 402580; 402260; 401980; 401770; 401650; 401630; 401740; 401990; 402400; 402990;
  403750; 404680; 405770; 407030; 408450; 410020; 411730; 413600; 415600; 417740; 420020; 422450;
  425040; 427790; 430710; 433800; 437080; 440540; 444200; 448060; 452110; 456330; 460720; 465260;
  469940; 474750; 479670; 484690; 489800; 494990; 500270; 505630; 511080; 516640; 522300; 528070;
  533950; 539960; 546100; 552360; 558710; 565100; 571480; 577810; 584030; 590110; 596000; 601640;
  607000; 612040; 616820; 621400; 625840; 630230; 634620; 639090; 643690; 648510; 653600; 659010;
  664630; 670360; 676070; 681620; 686910; 691810; 696180; 699920; 702900; 707460; 711360; 715230;
  719060; 722870; 726640; 730390; 734090; 737770; 741410; 745030; 748600; 752150; 755660; 759130;
  762570; 765980; 769360; 772700; 776000; 779270; 782510; 785710; 788880; 792020; 795110; 798180;
  801210; 804210; 807170; 810100; 812990; 815850; 818670; 821470; 824220; 826950; 829640; 832300;
  834920; 837510; 840070; 842590; 845090; 847550; 849980; 852370; 854740; 857070; 859370; 861640;
  863880; 866090; 868270; 870420; 872540; 874630; 876690; 878720; 880720; 882690; 884640; 886560;
  888440; 890310; 892140; 893950; 895730; 897480; 899210; 900910; 902590; 904240; 905860; 907460;
  909040; 910590; 912120; 913630].

(** hpp:5527-5567 *)
Definition T_CES84 : list dec := table (-6) [
  33754; 34106; 34463; 34823; 35186; 35553; 35924; 36299; 36677; 37059; 37445; 37835; 38229; 38626;
  39028; 39434; 39843; 40257; 40675; 41097; 41383; 41884; 42374; 42854; 43326; 43791; 44249; 44703;
  45153; 45601; 46047; 46494; 46942; 47392; 47846; 48304; 48769; 49241; 49721; 50211; 50712; 51224;
  51746; 52275; 52808; 53344; 53880; 54413; 54941; 55461; 55971; 56469; 56952; 57419; 57867; 58293;
  58697; 59076; 59427; 59750; 60040; 60298; 60525; 60724; 60896; 61045; 61173; 61283; 61378; 61459;
  61529; 61590; 61641; 61680; 61704; 61712; 61701; 61669; 61615; 61536; 61430; 61295; 61135; 60953;
  60752; 60536; 60308; 60072; 59830; 59587; 59346; 59110; 58885; 58677; 58491; 58333; 58208; 58122;
  58081; 58090; 58155; 58279; 58458; 58685; 58953; 59255; 59583; 59933; 60295; 60664; 61033; 61394;
  61744; 62076; 62387; 62670; 62922; 63137; 63311; 63438; 63514; 63535; 63504; 63426; 63305; 63146;
  62952; 62729; 62480; 62211; 61926; 61627; 61315; 60986; 60639; 60272; 59882; 59468; 59027; 58556;
  58055; 57522; 56958; 56367; 55752; 55115; 54459; 53787; 53102; 52407; 51704; 50997; 50286; 49572;
  48856; 48138; 47420; 46702; 45986; 45271; 44559; 43850; 43146; 42447; 41756; 41072; 40397; 39732;
  39079; 38438; 37810; 37198; 36603; 36029; 35479; 34956; 34462; 34002; 33577; 33192; 32848; 32550;
  32294; 32079; 31904; 31765; 31662; 31591; 31552; 31542; 31558; 31601; 31674; 31782; 31929; 32122;
  32365; 32664; 33022; 33446; 33940; 34508; 35145; 35847; 36607; 37419; 38279; 39181; 40118; 41086;
  42078; 43089; 44110; 45135; 46154; 47160; 48144; 49099; 50016; 50887; 51704; 52461; 53161; 53809;
  54408; 54964; 55482; 55966; 56420; 56851; 57261; 57656; 58035; 58398; 58745; 59074; 59385; 59677;
  59950; 60204; 60437; 60650; 60843; 61017; 61175; 61316; 61443; 61556; 61657; 61747; 61827; 61898;
  61963; 62024; 62083; 62142; 62204; 62271; 62344; 62427; 62521; 62628; 62747; 62876; 63014; 63158;
  63306; 63457; 63610; 63761; 63911; 64056; 64195; 64329; 64455; 64573; 64681; 64779; 64866; 64941;
  65002; 65050; 65084; 65105; 65116; 65117; 65108; 65091; 65067; 65037; 65002; 64963; 64921; 64875;
  64826; 64776; 64724; 64670; 64616; 64561; 64506; 64452; 64397; 64342; 64287; 64230; 64171; 64111;
  64047; 63981; 63911; 63837; 63758; 63675; 63586; 63492; 63391; 63284; 63170; 63048; 62918; 62921;
  62833; 62746; 62659; 62572; 62485; 62398; 62311; 62224; 62138; 62051; 61965; 61879; 61793; 61707;
  61621; 61535; 61450; 61364; 61279; 61193; 61108; 61023; 60938; 60853; 60769; 60684; 60599; 60515;
  60431; 60347; 60262; 60178; 60095; 60011; 59927; 59844; 59760; 59677; 59594; 59511; 59428; 59345;
  59262; 59179; 59097; 59014; 58932; 58850; 58768; 58686; 58604; 58522; 58440; 58358; 58277; 58196;
  58114; 58033; 57952; 57871; 57790; 57710; 57629; 57548; 57468; 57388; 57307; 57227; 57147; 57067;
  56988; 56908; 56828; 56749; 56670; 56590; 56511; 56432].

(** hpp:5568-5608 *)
Definition T_CES85 : list dec := table (-6) [
  14249; 13601; 11656; 11680; 12398; 12915; 12881; 13581; 14289; 15239; 17314; 18985; 19990; 22170;
  23181; 24437; 26441; 29210; 32328; 35656; 38310; 39964; 41976; 44240; 46645; 49395; 52798; 56377;
  59012; 61242; 63243; 65841; 69235; 72588; 76166; 79552; 82672; 85384; 88418; 91860; 95230; 98943;
  101950; 104700; 108480; 112330; 116270; 120570; 124480; 128220; 131660; 135460; 139270; 143670;
  147560; 149500; 151390; 153380; 155190; 156720; 158200; 160290; 161460; 161590; 161550; 162750;
  165140; 166730; 168370; 169610; 171070; 171860; 172030; 173020; 174320; 174960; 174800; 174970;
  175520; 175000; 173950; 173150; 173480; 174220; 174400; 173700; 174110; 174470; 173730; 173010;
  172160; 171710; 171270; 169930; 168450; 167270; 167120; 165620; 163550; 161780; 160070; 159260;
  158500; 157780; 156920; 155760; 154480; 152970; 152000; 150700; 149270; 147950; 146550; 145620;
  144570; 143210; 141730; 139730; 137650; 135450; 134360; 133270; 132070; 130440; 128370; 126440;
  125070; 123830; 122800; 121920; 121230; 120180; 118940; 117330; 116430; 115990; 115200; 113980;
  112750; 111520; 110040; 108310; 106840; 105930; 105250; 104000; 102410; 100770; 99384; 98325;
  97159; 96076; 95405; 94822; 94267; 93593; 93181; 92920; 92830; 92639; 92134; 92305; 92678; 93017;
  93029; 92614; 92157; 91279; 90637; 90438; 90657; 90810; 90329; 89886; 89573; 89016; 88773; 88818;
  89194; 89247; 89068; 88876; 88609; 88624; 88360; 87918; 88044; 88265; 88420; 88144; 87941; 87402;
  86601; 86218; 85813; 85875; 85788; 85625; 85083; 84757; 84629; 84470; 84794; 85620; 86012; 87252;
  88404; 89045; 89310; 89975; 90875; 92511; 94109; 95129; 95883; 97581; 99109; 99961; 100600;
  101520; 102740; 104080; 105060; 106250; 107710; 108740; 108860; 107990; 107040; 108160; 109590;
  110490; 110570; 110690; 111220; 111710; 111890; 112480; 113780; 115750; 116030; 116060; 117560;
  119660; 121610; 122760; 124320; 125600; 126890; 127910; 129160; 131510; 135090; 136550; 137460;
  138260; 139280; 140280; 141920; 143620; 144640; 145510; 146010; 146020; 147030; 150490; 153660;
  156800; 160010; 163940; 167850; 172910; 178570; 184360; 189100; 192650; 194600; 196900; 200190;
  203910; 207840; 212290; 216580; 220300; 223870; 227940; 233120; 238120; 243820; 248490; 252550;
  256260; 259640; 263050; 266580; 269740; 273160; 277130; 280980; 283950; 287370; 290550; 294450;
  298320; 301660; 304810; 307440; 309660; 311930; 314130; 316300; 318190; 320520; 322430; 324190;
  324170; 324540; 328790; 335870; 338780; 338780; 340040; 342290; 344550; 346810; 349080; 351360;
  353640; 355930; 358230; 360540; 362850; 365160; 367490; 369820; 372150; 374490; 376840; 379190;
  381550; 383920; 386290; 388660; 391040; 393430; 395820; 398220; 400620; 403020; 405440; 407850;
  410270; 412690; 415120; 417550; 419990; 422430; 424870; 427320; 429770; 432230; 434690; 437150;
  439610; 442080; 444550; 447020; 449500; 451970; 454450; 456940; 459420; 461910; 464400; 466890;
  469380; 471870; 474370; 476860; 479360; 481860; 484360; 486860; 489360; 491860; 494360; 496870;
  499370; 501870; 504370; 506870; 509380; 511880; 514380; 516880; 519380; 521870; 524370; 526870;
  529360].

(** hpp:5609-5649 *)
Definition T_CES86 : list dec := table (-6) [
  502520; 504820; 507110; 509410; 511700; 514000; 516290; 518580; 520870; 523170; 525460; 527740;
  530030; 532320; 534600; 536890; 539170; 541450; 543730; 546010; 546360; 549520; 552510; 555340;
  558020; 560560; 562960; 565240; 567390; 569430; 571380; 573220; 574980; 576660; 578260; 579810;
  581300; 582740; 584140; 585510; 586860; 588190; 589480; 590700; 591830; 592840; 593700; 594400;
  594900; 595170; 595200; 594970; 594480; 593770; 592850; 591760; 590510; 589140; 587660; 586100;
  584480; 582830; 581130; 579390; 577600; 575750; 573840; 571860; 569800; 567650; 565420; 563090;
  560670; 558160; 555560; 552870; 550100; 547240; 544310; 541300; 538210; 535060; 531830; 528530;
  525170; 521740; 518240; 514690; 511070; 507400; 503660; 499880; 496050; 492180; 488280; 484370;
  480450; 476520; 472610; 468710; 464840; 461010; 457210; 453440; 449700; 445970; 442270; 438590;
  434920; 431260; 427610; 423970; 420320; 416670; 413010; 409340; 405650; 401950; 398220; 394470;
  390680; 386860; 383020; 379160; 375300; 371450; 367610; 363810; 360040; 356320; 352650; 349060;
  345540; 342100; 338750; 335490; 332330; 329280; 326330; 323500; 320780; 318200; 315730; 313360;
  311090; 308900; 306780; 304730; 302730; 300770; 298840; 296930; 295030; 293130; 291210; 289270;
  287290; 285260; 283180; 281020; 278790; 276470; 274070; 271630; 269140; 266640; 264150; 261670;
  259240; 256860; 254560; 252360; 250270; 248310; 246490; 244830; 243340; 242050; 240960; 240100;
  239470; 239090; 238940; 239010; 239270; 239690; 240270; 240970; 241780; 242680; 243640; 244650;
  245680; 246720; 247750; 248750; 249690; 250560; 251350; 252030; 252580; 252980; 253250; 253390;
  253410; 253310; 253100; 252800; 252410; 251930; 251390; 250780; 250130; 249490; 248880; 248330;
  247880; 247560; 247410; 247440; 247710; 248240; 249050; 250160; 251600; 253390; 255550; 258110;
  261080; 264490; 268360; 272710; 277540; 282850; 288640; 294910; 301660; 308880; 316580; 324750;
  333390; 342510; 352070; 362060; 372460; 383250; 394400; 405890; 417710; 429820; 442210; 454850;
  467680; 480640; 493670; 506700; 519670; 532510; 545180; 557590; 569690; 581420; 592770; 603720;
  614260; 624380; 634080; 643340; 652150; 660500; 668370; 675780; 682710; 689190; 695240; 700870;
  706080; 710910; 715360; 719440; 723180; 726580; 729680; 732490; 735030; 737330; 739410; 741300;
  743010; 744580; 746010; 747350; 748580; 749740; 750820; 751850; 752820; 753760; 754670; 755560;
  756440; 757330; 758220; 759130; 760070; 761020; 762010; 763030; 764100; 765210; 766370; 767590;
  768870; 770210; 771630; 773130; 774710; 776370; 778130; 779990; 781950; 782060; 783420; 784770;
  786120; 787470; 788800; 790130; 791460; 792780; 794090; 795390; 796690; 797990; 799270; 800560;
  801830; 803100; 804360; 805620; 806870; 808110; 809350; 810580; 811810; 813030; 814240; 815450;
  816650; 817850; 819040; 820220; 821400; 822570; 823740; 824900; 826050; 827200; 828340; 829470;
  830600; 831730; 832840; 833960; 835060; 836160; 837250; 838340; 839420; 840500; 841570; 842640;
  843690; 844750; 845790; 846830; 847870; 848900; 849920; 850940; 851950; 852960; 853960; 854960;
  855950; 856930; 857910; 858880; 859850; 860810; 861770; 862720; 863670; 864610; 865540; 866470;
  867390; 868310; 869220; 870130].

(** hpp:5650-5690 *)
Definition T_CES87 : list dec := table (-6) [
  106130; 108020; 109930; 111880; 113850; 115860; 117890; 119960; 122060; 124190; 126350; 128540;
  130760; 133020; 135310; 137640; 139990; 142390; 144810; 147270; 145960; 150310; 154350; 158090;
  161550; 164760; 167720; 170470; 173000; 175350; 177530; 179560; 181460; 183240; 184920; 186530;
  188070; 189580; 191060; 192530; 194010; 195520; 197070; 198650; 200270; 201930; 203640; 205400;
  207200; 209070; 210990; 212970; 214990; 217040; 219100; 221140; 223160; 225120; 227020; 228840;
  230550; 232140; 233600; 234900; 236040; 237000; 237750; 238300; 238610; 238680; 238490; 238040;
  237320; 236370; 235210; 233840; 232290; 230590; 228740; 226770; 224690; 222530; 220300; 217990;
  215630; 213220; 210770; 208290; 205790; 203280; 200760; 198250; 195750; 193250; 190770; 188290;
  185830; 183380; 180950; 178540; 176140; 173760; 171410; 169080; 166770; 164480; 162210; 159970;
  157760; 155570; 153400; 151260; 149150; 147050; 144970; 142900; 140830; 138770; 136700; 134630;
  132550; 130460; 128350; 126240; 124110; 121970; 119830; 117680; 115520; 113370; 111200; 109040;
  106890; 104750; 102630; 100540; 98496; 96494; 94547; 92663; 90850; 89115; 87458; 85880; 84381;
  82961; 81620; 80358; 79176; 78073; 77049; 76103; 75224; 74401; 73623; 72876; 72149; 71430; 70708;
  69970; 69205; 68403; 67562; 66684; 65770; 64821; 63836; 62819; 61768; 60687; 59574; 58433; 57271;
  56096; 54918; 53745; 52585; 51448; 50341; 49274; 48255; 47292; 46387; 45541; 44756; 44034; 43375;
  42782; 42254; 41795; 41404; 41088; 40872; 40783; 40852; 41106; 41575; 42286; 43270; 44555; 46170;
  48135; 50444; 53079; 56024; 59265; 62784; 66567; 70596; 74857; 79333; 84001; 88811; 93705; 98627;
  103520; 108320; 112980; 117430; 121630; 125500; 129020; 132180; 135030; 137570; 139840; 141870;
  143680; 145290; 146740; 148040; 149230; 150310; 151290; 152190; 153010; 153770; 154480; 155140;
  155770; 156380; 156980; 157560; 158140; 158700; 159270; 159820; 160380; 160930; 161490; 162040;
  162600; 163160; 163740; 164320; 164920; 165530; 166160; 166820; 167490; 168200; 168930; 169690;
  170480; 171300; 172150; 173030; 173930; 174870; 175840; 176840; 177860; 178900; 179950; 180990;
  182000; 182980; 183910; 184770; 185560; 186270; 186870; 187380; 187780; 188090; 188300; 188410;
  188440; 188370; 188210; 187960; 187620; 187210; 186750; 186240; 185710; 185160; 184620; 184100;
  183620; 183190; 182820; 182510; 182250; 182040; 181850; 181700; 181570; 181450; 181330; 181200;
  181070; 180920; 180730; 180520; 180260; 179940; 179570; 179130; 178620; 178030; 178470; 178230;
  177990; 177750; 177510; 177270; 177030; 176790; 176560; 176320; 176080; 175840; 175600; 175370;
  175130; 174890; 174660; 174420; 174190; 173950; 173710; 173480; 173240; 173010; 172780; 172540;
  172310; 172070; 171840; 171610; 171370; 171140; 170910; 170680; 170450; 170210; 169980; 169750;
  169520; 169290; 169060; 168830; 168600; 168370; 168140; 167910; 167680; 167450; 167230; 167000;
  166770; 166540; 166310; 166090; 165860; 165630; 165410; 165180; 164960; 164730; 164510; 164280;
  164060; 163830; 163610; 163380; 163160; 162930; 162710; 162490; 162260; 162040; 161820; 161600;
  161380; 161150; 160930; 160710; 160490].

(** hpp:5691-5731 *)
Definition T_CES88 : list dec := table (-6) [
  426400; 429170; 431960; 434740; 437530; 440330; 443130; 445930; 448730; 451540; 454350; 457170;
  459990; 462810; 465630; 468450; 471280; 474110; 476940; 479770; 474900; 481290; 487020; 492110;
  496610; 500540; 503940; 506830; 509260; 511250; 512830; 514050; 514920; 515490; 515790; 515840;
  515690; 515350; 514880; 514290; 513630; 512910; 512130; 511290; 510380; 509380; 508290; 507090;
  505790; 504360; 502800; 501110; 499290; 497340; 495280; 493130; 490880; 488550; 486140; 483680;
  481160; 478600; 476000; 473370; 470710; 468040; 465360; 462670; 459990; 457310; 454650; 452010;
  449390; 446790; 444210; 441640; 439090; 436560; 434040; 431530; 429030; 426540; 424060; 421590;
  419110; 416620; 414130; 411630; 409110; 406570; 404010; 401420; 398800; 396140; 393440; 390680;
  387870; 384990; 382040; 379020; 375910; 372720; 369440; 366070; 362630; 359120; 355530; 351880;
  348170; 344390; 340560; 336690; 332780; 328850; 324930; 321030; 317180; 313380; 309660; 306040;
  302540; 299160; 295900; 292730; 289650; 286620; 283640; 280680; 277720; 274760; 271760; 268710;
  265610; 262460; 259250; 255980; 252660; 249270; 245810; 242290; 238690; 235030; 231340; 227650;
  224000; 220420; 216950; 213630; 210500; 207590; 204930; 202570; 200480; 198670; 197110; 195800;
  194730; 193870; 193230; 192780; 192520; 192430; 192480; 192640; 192870; 193150; 193430; 193690;
  193900; 194020; 194010; 193860; 193570; 193130; 192570; 191900; 191110; 190230; 189250; 188190;
  187060; 185880; 184680; 183510; 182440; 181510; 180770; 180260; 180050; 180180; 180710; 181670;
  183060; 184890; 187150; 189830; 192930; 196440; 200360; 204680; 209400; 214510; 219960; 225710;
  231720; 237950; 244350; 250870; 257480; 264120; 270760; 277360; 283890; 290350; 296740; 303020;
  309210; 315280; 321230; 327050; 332720; 338240; 343610; 348820; 353900; 358830; 363620; 368280;
  372810; 377200; 381470; 385620; 389630; 393500; 397210; 400760; 404130; 407310; 410300; 413070;
  415630; 417960; 420060; 421940; 423610; 425080; 426350; 427420; 428300; 429000; 429530; 429890;
  430090; 430150; 430080; 429900; 429610; 429240; 428800; 428290; 427740; 427160; 426570; 425990;
  425450; 424970; 424580; 424280; 424120; 424110; 424270; 424620; 425190; 425990; 427030; 428330;
  429900; 431770; 433940; 436430; 439260; 442440; 445980; 449880; 454140; 458770; 463780; 469160;
  474920; 481070; 487610; 494540; 501830; 509460; 517400; 525620; 534090; 542780; 551670; 560730;
  569920; 579230; 588620; 598060; 607510; 616950; 626350; 635670; 644880; 653950; 662860; 671560;
  680040; 688250; 696160; 703750; 710990; 717840; 724260; 730240; 735740; 745970; 752850; 759610;
  766250; 772750; 779130; 785380; 791490; 797480; 803340; 809070; 814670; 820140; 825490; 830710;
  835810; 840780; 845630; 850350; 854960; 859450; 863820; 868080; 872220; 876250; 880180; 883990;
  887700; 891300; 894810; 898210; 901510; 904720; 907840; 910860; 913790; 916640; 919400; 922080;
  924670; 927190; 929620; 931980; 934270; 936490; 938640; 940720; 942730; 944680; 946560; 948390;
  950150; 951860; 953510; 955110; 956660; 958160; 959600; 961000; 962350; 963660; 964920; 966140;
  967320; 968460; 969560; 970620; 971650; 972650; 973600; 974530; 975430; 976290; 977120; 977930;
  978710; 979460; 980180; 980880].

(** hpp:5732-5772 *)
Definition T_CES89 : list dec := table (-6) [
  72745; 74530; 76356; 78222; 80130; 82080; 84073; 86111; 88192; 90320; 92493; 94713; 96981; 99297;
  101660; 104080; 106540; 109060; 111630; 114250; 115460; 118710; 121990; 125300; 128610; 131910;
  135180; 138400; 141550; 144610; 147570; 150400; 153090; 155620; 157960; 160110; 162050; 163740;
  165190; 166360; 167240; 167820; 168150; 168300; 168320; 168280; 168240; 168250; 168390; 168710;
  169270; 170120; 171220; 172500; 173900; 175370; 176850; 178270; 179580; 180710; 181600; 182220;
  182570; 182680; 182580; 182300; 181850; 181280; 180600; 179850; 179060; 178230; 177380; 176500;
  175560; 174580; 173530; 172410; 171220; 169940; 168560; 167080; 165500; 163820; 162050; 160170;
  158200; 156140; 153980; 151740; 149400; 146980; 144490; 141950; 139380; 136790; 134200; 131630;
  129100; 126630; 124230; 121910; 119680; 117520; 115410; 113360; 111340; 109350; 107380; 105410;
  103440; 101460; 99471; 97490; 95523; 93581; 91674; 89811; 88002; 86257; 84586; 82996; 81487;
  80056; 78699; 77414; 76196; 75044; 73954; 72924; 71949; 71027; 70152; 69319; 68523; 67757; 67017;
  66298; 65592; 64896; 64204; 63511; 62819; 62131; 61451; 60780; 60122; 59481; 58858; 58257; 57681;
  57133; 56615; 56129; 55678; 55263; 54886; 54550; 54257; 54009; 53809; 53657; 53557; 53510; 53518;
  53583; 53707; 53891; 54138; 54450; 54828; 55273; 55781; 56346; 56964; 57627; 58332; 59073; 59843;
  60638; 61452; 62280; 63117; 63959; 64801; 65639; 66468; 67283; 68081; 68856; 69605; 70324; 71020;
  71699; 72370; 73040; 73716; 74406; 75118; 75859; 76637; 77458; 78323; 79234; 80191; 81195; 82245;
  83344; 84490; 85685; 86930; 88224; 89566; 90954; 92386; 93861; 95377; 96931; 98523; 100150;
  101810; 103500; 105210; 106950; 108700; 110450; 112210; 113960; 115710; 117430; 119130; 120810;
  122450; 124050; 125620; 127140; 128610; 130020; 131380; 132680; 133910; 135080; 136180; 137230;
  138240; 139220; 140170; 141100; 142030; 142960; 143900; 144860; 145850; 146870; 147950; 149090;
  150300; 151580; 152960; 154440; 156030; 157730; 159560; 161520; 163610; 165830; 168190; 170680;
  173330; 176120; 179060; 182150; 185400; 188800; 192360; 196070; 199940; 203960; 208140; 212480;
  216970; 221620; 226420; 231370; 236470; 241700; 247080; 252580; 258220; 263980; 269860; 275860;
  281980; 288220; 294580; 301070; 307690; 314440; 321320; 328330; 335490; 342780; 350200; 357730;
  365370; 373090; 380880; 388740; 396640; 404580; 412530; 420500; 428460; 436410; 444320; 452190;
  460000; 467730; 475390; 482950; 490390; 499550; 507560; 515570; 523570; 531550; 539530; 547480;
  555400; 563300; 571170; 579000; 586790; 594540; 602240; 609890; 617490; 625030; 632510; 639930;
  647280; 654560; 661770; 668910; 675960; 682940; 689840; 696660; 703390; 710030; 716580; 723050;
  729420; 735700; 741880; 747970; 753960; 759860; 765660; 771360; 776960; 782470; 787870; 793180;
  798390; 803500; 808510; 813420; 818230; 822950; 827570; 832100; 836530; 840860; 845110; 849250;
  853310; 857280; 861150; 864940; 868640; 872260; 875780; 879230; 882590; 885870; 889070; 892190;
  895240; 898200; 901100; 903920; 906660; 909340; 911950; 914490; 916960; 919370; 921710; 923990].

(** hpp:5773-5813 *)
Definition T_CES90 : list dec := table (-6) [
  221780; 223650; 225540; 227440; 229340; 231270; 233200; 235140; 237090; 239060; 241030; 243020;
  245020; 247030; 249050; 251080; 253120; 255180; 257240; 259320; 261700; 263320; 265330; 267620;
  270120; 272710; 275300; 277800; 280120; 282150; 283800; 285000; 285770; 286160; 286210; 285980;
  285520; 284860; 284050; 283150; 282200; 281240; 280260; 279260; 278210; 277110; 275940; 274680;
  273330; 271880; 270300; 268590; 266760; 264810; 262770; 260630; 258410; 256130; 253800; 251410;
  249000; 246560; 244110; 241630; 239140; 236630; 234110; 231570; 229020; 226470; 223900; 221330;
  218750; 216180; 213620; 211070; 208540; 206030; 203550; 201110; 198700; 196340; 194010; 191710;
  189440; 187180; 184930; 182690; 180440; 178180; 175900; 173600; 171270; 168920; 166560; 164170;
  161760; 159340; 156910; 154460; 152000; 149530; 147070; 144610; 142180; 139790; 137430; 135140;
  132910; 130760; 128700; 126740; 124870; 123090; 121390; 119770; 118210; 116730; 115300; 113930;
  112600; 111310; 110060; 108830; 107620; 106420; 105210; 103990; 102760; 101500; 100200; 98861;
  97485; 96079; 94651; 93207; 91754; 90300; 88851; 87416; 86000; 84611; 83256; 81939; 80667; 79445;
  78280; 77177; 76142; 75181; 74300; 73503; 72791; 72160; 71610; 71139; 70745; 70425; 70179; 70005;
  69900; 69862; 69882; 69949; 70054; 70187; 70336; 70492; 70645; 70784; 70900; 70984; 71040; 71073;
  71088; 71090; 71085; 71078; 71075; 71080; 71100; 71140; 71213; 71331; 71507; 71754; 72085; 72512;
  73048; 73706; 74500; 75441; 76537; 77798; 79231; 80844; 82646; 84644; 86847; 89263; 91900; 94761;
  97832; 101090; 104520; 108110; 111820; 115650; 119560; 123560; 127600; 131680; 135770; 139850;
  143910; 147910; 151850; 155700; 159440; 163040; 166500; 169790; 172910; 175860; 178660; 181300;
  183780; 186120; 188320; 190380; 192300; 194090; 195760; 197310; 198760; 200110; 201380; 202560;
  203670; 204710; 205700; 206640; 207540; 208390; 209210; 209990; 210730; 211440; 212120; 212770;
  213400; 214010; 214590; 215160; 215710; 216260; 216790; 217320; 217850; 218370; 218900; 219430;
  219970; 220520; 221080; 221640; 222210; 222790; 223380; 223990; 224600; 225220; 225850; 226480;
  227090; 227680; 228250; 228780; 229270; 229720; 230100; 230420; 230700; 230930; 231150; 231370;
  231590; 231840; 232130; 232480; 232900; 233400; 233980; 234620; 235320; 236060; 236840; 237640;
  238460; 239280; 240100; 240900; 241690; 242450; 243200; 243930; 244630; 245310; 245970; 246600;
  247200; 247770; 248320; 248830; 249300; 249730; 250120; 250470; 250760; 251010; 251200; 251520;
  251790; 252060; 252340; 252610; 252880; 253150; 253420; 253690; 253970; 254240; 254510; 254780;
  255060; 255330; 255600; 255880; 256150; 256420; 256700; 256970; 257250; 257520; 257800; 258070;
  258350; 258620; 258900; 259180; 259450; 259730; 260000; 260280; 260560; 260830; 261110; 261390;
  261670; 261940; 262220; 262500; 262780; 263060; 263340; 263620; 263890; 264170; 264450; 264730;
  265010; 265290; 265570; 265850; 266130; 266420; 266700; 266980; 267260; 267540; 267820; 268100;
  268390; 268670; 268950; 269230; 269520; 269800; 270080; 270370; 270650; 270930; 271220; 271500;
  271790; 272070; 272360; 272640; 272930; 273210].

(** hpp:5814-5854 *)
Definition T_CES91 : list dec := table (-6) [
  29659; 29735; 30120; 30910; 32140; 33792; 35833; 38217; 40943; 44085; 47769; 52163; 57429; 63686;
  70954; 79168; 88215; 97973; 108346; 119276; 130745; 139272; 148185; 157455; 167044; 176905;
  186995; 197276; 207725; 218323; 229051; 239898; 250861; 261941; 273141; 284463; 295915; 307493;
  319186; 330962; 342785; 354613; 366402; 378107; 389684; 401096; 412311; 423307; 434062; 444560;
  454787; 464732; 474390; 483749; 492788; 501498; 509870; 517893; 525540; 532791; 539635; 546061;
  552061; 557638; 562815; 567622; 572087; 576241; 580111; 583716; 587077; 590206; 593118; 595822;
  598321; 600611; 602682; 604519; 606103; 607427; 608495; 609324; 609932; 610343; 610573; 610639;
  610551; 610318; 609942; 609428; 608792; 608047; 607200; 606247; 605195; 604056; 602836; 601536;
  600170; 598766; 597343; 595904; 594453; 592999; 591547; 590092; 588628; 587161; 585694; 584227;
  582752; 581265; 579765; 578244; 576693; 575109; 573493; 571853; 570199; 568549; 566923; 565338;
  563800; 562313; 560876; 559486; 558136; 556820; 555528; 554248; 552966; 551660; 550314; 548916;
  547467; 545970; 544429; 542851; 541242; 539602; 537934; 536239; 534526; 532809; 531106; 529435;
  527813; 526257; 524776; 523378; 522066; 520841; 519699; 518632; 517633; 516693; 515799; 514938;
  514099; 513271; 512442; 511602; 510745; 509870; 508976; 508068; 507156; 506250; 505365; 504512;
  503709; 502973; 502319; 501760; 501308; 500973; 500760; 500670; 500699; 500843; 501095; 501439;
  501861; 502344; 502869; 503417; 503970; 504515; 505041; 505540; 506010; 506452; 506871; 507278;
  507680; 508091; 508523; 508990; 509504; 510076; 510715; 511431; 512228; 513109; 514076; 515127;
  516260; 517473; 518762; 520122; 521545; 523022; 524544; 526099; 527673; 529253; 530831; 532400;
  533959; 535507; 537053; 538605; 540175; 541775; 543416; 545110; 546866; 548691; 550587; 552553;
  554584; 556670; 558802; 560968; 563159; 565367; 567590; 569826; 572076; 574339; 576610; 578875;
  581119; 583318; 585450; 587491; 589422; 591231; 592910; 594454; 595864; 597150; 598327; 599418;
  600450; 601456; 602469; 603514; 604605; 605749; 606944; 608180; 609443; 610717; 611989; 613245;
  614470; 615654; 616783; 617852; 618857; 619801; 620699; 621571; 622438; 623315; 624212; 625132;
  626066; 626997; 627900; 628765; 629575; 630313; 630959; 631500; 631929; 632241; 632442; 632546;
  632582; 632576; 632549; 632514; 632478; 632336; 632312; 632364; 632431; 632434; 632349; 631869;
  631270; 630558; 629746; 628840; 627849; 626780; 625644; 624451; 623210; 621928; 620607; 619242;
  617821; 616327; 614749; 613078; 611308; 609442; 607494; 605480; 603413; 601315; 599215; 597151;
  595158; 593262; 591485; 589834; 588300; 586859; 585481; 584140; 582809; 581463; 580184; 578724;
  577099; 575349; 573542; 571696; 570118; 568539; 566958; 565376; 563793; 562208; 560622; 559035;
  557447; 555858; 554267; 552676; 551083; 549489; 547894; 546299; 544702; 543104; 541505; 539906;
  538306; 536704; 535102; 533500; 531897; 530293; 528688; 527083; 525478; 523871; 522265; 520657;
  519050; 517442; 515833; 514225; 512616; 511007; 509397; 507789; 506180; 504570; 502960; 501349;
  499738; 498126; 496514; 494902; 493290; 491678; 490066; 488455; 486843; 485232; 483620; 482010;
  480400; 478790].

(** hpp:5855-5895 *)
Definition T_CES92 : list dec := table (-6) [
  5260; 8165; 11513; 14950; 18986; 24483; 30356; 36139; 41619; 46919; 51650; 55890; 60028; 64418;
  68980; 73734; 78563; 83261; 87780; 92207; 96701; 101293; 105973; 110737; 115562; 120482; 125563;
  130789; 136153; 141616; 147052; 152431; 157753; 163019; 168272; 173554; 178816; 183998; 189103;
  194102; 199025; 203942; 208860; 213757; 218606; 223370; 227988; 232458; 236784; 240956; 244973;
  248849; 252592; 256212; 259747; 263213; 266606; 269933; 273181; 276317; 279320; 282178; 284872;
  287406; 289791; 292027; 294074; 295895; 297472; 298812; 299902; 300780; 301492; 302067; 302473;
  302696; 302736; 302617; 302362; 301998; 301543; 301041; 300470; 299808; 299062; 298263; 297410;
  296528; 295636; 294738; 293857; 292966; 292029; 291046; 290022; 288921; 287750; 286534; 285250;
  283890; 282468; 280970; 279409; 277801; 276152; 274454; 272715; 270918; 269055; 267130; 265144;
  263112; 261050; 258977; 256915; 254876; 252869; 250905; 248995; 247135; 245322; 243570; 241857;
  240168; 238485; 236787; 235054; 233275; 231433; 229528; 227558; 225512; 223409; 221278; 219123;
  216957; 214807; 212666; 210529; 208415; 206344; 204319; 202366; 200462; 198596; 196761; 194964;
  193191; 191466; 189792; 188162; 186562; 184995; 183449; 181934; 180448; 178996; 177569; 176163;
  174766; 173397; 172069; 170787; 169551; 168376; 167254; 166183; 165177; 164244; 163390; 162626;
  161949; 161348; 160827; 160383; 160004; 159691; 159439; 159231; 159063; 158930; 158824; 158743;
  158690; 158671; 158684; 158729; 158797; 158896; 159018; 159176; 159361; 159580; 159841; 160151;
  160484; 160858; 161274; 161740; 162250; 162830; 163457; 164150; 164911; 165732; 166612; 167577;
  168614; 169720; 170917; 172219; 173622; 175137; 176774; 178530; 180408; 182434; 184621; 186987;
  189553; 192328; 195308; 198500; 201927; 205595; 209527; 213749; 218264; 223068; 228148; 233499;
  239095; 244944; 251031; 257342; 263842; 270529; 277365; 284320; 291371; 298504; 305699; 312958;
  320279; 327681; 335178; 342766; 350425; 358153; 365920; 373727; 381617; 389588; 397642; 405786;
  413987; 422183; 430360; 438497; 446565; 454565; 462458; 470204; 477791; 485187; 492361; 499291;
  505980; 512397; 518531; 524388; 529981; 535327; 540436; 545325; 550008; 554483; 558757; 562840;
  566758; 570493; 574074; 577567; 581031; 584494; 587992; 591541; 595091; 598621; 602144; 605699;
  609305; 612904; 616428; 619817; 622869; 625653; 628230; 630680; 633010; 635228; 637651; 640030;
  642406; 644786; 647172; 649577; 652004; 654420; 656850; 659312; 661817; 664354; 666920; 669509;
  672117; 674741; 677410; 680132; 682914; 685752; 688678; 691680; 694701; 697691; 700595; 703355;
  705942; 708402; 710759; 713026; 715189; 717219; 719117; 720946; 722755; 724735; 726844; 729082;
  731366; 733696; 736072; 738168; 740253; 742328; 744391; 746444; 748485; 750516; 752536; 754545;
  756543; 758530; 760506; 762471; 764424; 766367; 768299; 770219; 772128; 774026; 775912; 777788;
  779652; 781505; 783347; 785178; 786997; 788806; 790602; 792388; 794163; 795926; 797678; 799419;
  801149; 802867; 804574; 806270; 807955; 809629; 811366; 813088; 814795; 816487; 818164; 819826;
  821472; 823104; 824721; 826323; 827911; 829483; 831041; 832584; 834113; 835626; 837126; 838610;
  840080].

(** hpp:5896-5936 *)
Definition T_CES93 : list dec := table (-6) [
  230770; 233310; 235850; 238400; 240960; 243520; 246080; 248650; 251220; 253790; 256360; 258930;
  261500; 264070; 266640; 269200; 271760; 274320; 276870; 279410; 281950; 284480; 287010; 289530;
  292060; 294600; 297150; 299720; 302300; 304910; 307540; 310200; 312910; 315650; 318450; 321300;
  324210; 327190; 330250; 333390; 336620; 339940; 343320; 346740; 350170; 353570; 356930; 360200;
  363360; 366390; 369250; 371920; 374410; 376750; 378960; 381050; 383050; 384980; 386860; 388700;
  390540; 392380; 394230; 396080; 397920; 399750; 401550; 403320; 405050; 406750; 408390; 409970;
  411480; 412900; 414210; 415390; 416430; 417300; 418000; 418490; 418770; 418820; 418670; 418330;
  417830; 417190; 416440; 415610; 414710; 413780; 412830; 411880; 410930; 409930; 408860; 407710;
  406440; 405030; 403460; 401690; 399710; 397500; 395070; 392460; 389700; 386820; 383840; 380790;
  377720; 374630; 371570; 368560; 365590; 362680; 359820; 357000; 354230; 351500; 348810; 346170;
  343560; 340990; 338460; 335960; 333500; 331080; 328700; 326350; 324040; 321760; 319520; 317320;
  315150; 313040; 310980; 308970; 307030; 305160; 303370; 301660; 300030; 298490; 297040; 295680;
  294380; 293160; 292000; 290900; 289850; 288840; 287880; 286950; 286060; 285220; 284410; 283650;
  282940; 282290; 281680; 281140; 280660; 280240; 279880; 279580; 279340; 279140; 278990; 278890;
  278820; 278790; 278800; 278840; 278910; 279010; 279160; 279350; 279590; 279880; 280220; 280610;
  281070; 281590; 282160; 282790; 283470; 284190; 284950; 285740; 286560; 287410; 288270; 289150;
  290050; 290980; 291940; 292950; 294000; 295120; 296300; 297560; 298890; 300310; 301820; 303410;
  305080; 306830; 308660; 310560; 312540; 314580; 316700; 318880; 321130; 323460; 325850; 328320;
  330870; 333500; 336210; 339010; 341890; 344860; 347920; 351070; 354310; 357640; 361050; 364550;
  368140; 371820; 375580; 379430; 383360; 387380; 391480; 395670; 399930; 404290; 408720; 413230;
  417830; 422510; 427260; 432110; 437030; 442040; 447140; 452320; 457590; 462950; 468400; 473940;
  479560; 485250; 491000; 496790; 502620; 508470; 514340; 520200; 526060; 531900; 537710; 543500;
  549270; 555020; 560740; 566430; 572100; 577750; 583370; 588960; 594520; 600030; 605490; 610880;
  616210; 621460; 626610; 631680; 636630; 641470; 646200; 650810; 655300; 659680; 663950; 668090;
  672130; 676040; 679840; 683520; 687090; 690540; 693870; 697090; 700200; 703190; 706070; 708830;
  711480; 714020; 716450; 718790; 721040; 723210; 725300; 727330; 729300; 731210; 733090; 734930;
  736730; 738490; 740220; 741890; 743530; 745110; 746650; 748140; 749570; 750950; 752260; 753520;
  754700; 755810; 756850; 757800; 758670; 759450; 760130; 760720; 761210; 761630; 761970; 762260;
  762490; 762670; 762820; 762950; 763060; 763160; 763270; 763390; 763520; 763690; 763900; 764150;
  764470; 764840; 765300; 764990; 765170; 765350; 765520; 765700; 765880; 766050; 766230; 766400;
  766580; 766750; 766930; 767110; 767280; 767460; 767630; 767810; 767980; 768160; 768330; 768500;
  768680; 768850; 769030; 769200; 769380; 769550; 769720; 769900; 770070; 770250; 770420; 770590;
  770770; 770940; 771110; 771290; 771460; 771630; 771810; 771980; 772150; 772320; 772500; 772670;
  772840; 773010; 773190; 773360].

(** hpp:5937-5977 *)
Definition T_CES94 : list dec := table (-6) [
  61017; 62174; 63351; 64549; 65767; 67008; 68269; 69553; 70859; 72188; 73540; 74915; 76314; 77736;
  79183; 80654; 82150; 83672; 85219; 86792; 88100; 89822; 91571; 93344; 95136; 96944; 98762; 100590;
  102420; 104240; 106070; 107880; 109680; 111460; 113230; 114960; 116670; 118340; 119980; 121570;
  123120; 124610; 126070; 127470; 128840; 130160; 131450; 132700; 133920; 135120; 136290; 137430;
  138540; 139610; 140640; 141620; 142540; 143390; 144170; 144860; 145470; 145990; 146410; 146750;
  147010; 147180; 147280; 147310; 147270; 147170; 147000; 146780; 146500; 146160; 145760; 145280;
  144740; 144120; 143430; 142650; 141800; 140860; 139840; 138750; 137590; 136370; 135090; 133770;
  132400; 130990; 129550; 128080; 126590; 125060; 123520; 121940; 120330; 118700; 117040; 115340;
  113620; 111870; 110100; 108320; 106530; 104760; 103000; 101280; 99590; 97951; 96369; 94854; 93401;
  92006; 90664; 89368; 88113; 86895; 85708; 84546; 83405; 82279; 81170; 80077; 79003; 77947; 76912;
  75898; 74905; 73936; 72992; 72072; 71177; 70308; 69464; 68645; 67851; 67082; 66339; 65620; 64927;
  64259; 63616; 63001; 62413; 61854; 61324; 60824; 60356; 59920; 59516; 59146; 58810; 58507; 58236;
  57997; 57790; 57614; 57469; 57355; 57270; 57216; 57190; 57191; 57219; 57272; 57350; 57451; 57574;
  57718; 57883; 58066; 58268; 58485; 58717; 58962; 59218; 59485; 59761; 60044; 60333; 60627; 60926;
  61233; 61548; 61874; 62211; 62561; 62925; 63305; 63702; 64118; 64553; 65010; 65489; 65992; 66520;
  67074; 67656; 68267; 68908; 69581; 70288; 71032; 71814; 72639; 73509; 74425; 75391; 76410; 77484;
  78615; 79809; 81070; 82403; 83813; 85305; 86883; 88552; 90317; 92184; 94155; 96234; 98419; 100710;
  103110; 105630; 108250; 110980; 113830; 116790; 119860; 123050; 126370; 129820; 133410; 137140;
  141030; 145070; 149270; 153640; 158180; 162890; 167760; 172770; 177910; 183180; 188560; 194050;
  199630; 205300; 211040; 216850; 222750; 228720; 234770; 240900; 247110; 253400; 259780; 266240;
  272790; 279420; 286130; 292910; 299750; 306670; 313630; 320660; 327730; 334840; 342000; 349190;
  356420; 363670; 370960; 378270; 385610; 392970; 400340; 407730; 415140; 422550; 429960; 437360;
  444750; 452130; 459480; 466810; 474090; 481340; 488530; 495680; 502790; 509850; 516860; 523830;
  530750; 537630; 544470; 551270; 558020; 564730; 571390; 578000; 584550; 591040; 597460; 603810;
  610090; 616300; 622420; 628450; 634400; 640250; 646000; 651650; 657200; 662630; 667950; 673160;
  679550; 685040; 690490; 695880; 701210; 706500; 711720; 716900; 722010; 727070; 732070; 737010;
  741900; 746720; 751480; 756190; 760830; 765410; 769930; 774390; 778790; 783120; 787390; 791610;
  795760; 799850; 803870; 807840; 811740; 815580; 819370; 823090; 826750; 830350; 833890; 837370;
  840790; 844150; 847460; 850710; 853900; 857030; 860110; 863130; 866100; 869010; 871870; 874670;
  877420; 880120; 882770; 885370; 887920; 890410; 892860; 895260; 897620; 899920; 902180; 904400;
  906570; 908690; 910770; 912810; 914810; 916760; 918670; 920550; 922380; 924180; 925930; 927650;
  929340; 930980; 932590; 934170; 935710; 937220; 938690].

(** hpp:5978-6018 *)
Definition T_CES95 : list dec := table (-6) [
  73718; 76853; 80110; 83493; 87005; 90650; 94431; 98354; 102420; 106640; 111000; 115530; 120210;
  125050; 130070; 135250; 140600; 146130; 151840; 157740; 164280; 170140; 176340; 182870; 189690;
  196780; 204120; 211680; 219430; 227350; 235410; 243590; 251860; 260190; 268560; 276950; 285320;
  293650; 301920; 310100; 318160; 326090; 333880; 341530; 349040; 356430; 363680; 370800; 377800;
  384680; 391440; 398070; 404550; 410830; 416890; 422670; 428150; 433290; 438040; 442380; 446270;
  449670; 452610; 455130; 457270; 459050; 460510; 461700; 462630; 463350; 463900; 464300; 464560;
  464700; 464720; 464640; 464450; 464180; 463810; 463380; 462880; 462310; 461680; 460970; 460170;
  459260; 458240; 457090; 455810; 454380; 452790; 451030; 449130; 447090; 444940; 442690; 440370;
  437990; 435560; 433120; 430670; 428240; 425820; 423410; 421010; 418620; 416220; 413830; 411440;
  409030; 406620; 404200; 401770; 399320; 396860; 394370; 391870; 389350; 386810; 384250; 381660;
  379040; 376400; 373730; 371040; 368320; 365590; 362830; 360060; 357260; 354450; 351610; 348780;
  345940; 343120; 340320; 337560; 334840; 332170; 329560; 327030; 324580; 322220; 319930; 317730;
  315620; 313580; 311620; 309750; 307960; 306240; 304610; 303050; 301560; 300150; 298800; 297520;
  296300; 295140; 294040; 292990; 292000; 291050; 290150; 289290; 288480; 287700; 286970; 286260;
  285590; 284940; 284330; 283740; 283200; 282710; 282270; 281900; 281590; 281360; 281220; 281170;
  281220; 281360; 281610; 281950; 282380; 282910; 283530; 284250; 285060; 285960; 286950; 288050;
  289260; 290590; 292060; 293680; 295460; 297400; 299530; 301860; 304390; 307120; 310070; 313240;
  316620; 320220; 324050; 328110; 332390; 336920; 341670; 346660; 351870; 357300; 362930; 368770;
  374800; 381020; 387420; 393990; 400720; 407610; 414650; 421840; 429150; 436600; 444160; 451830;
  459600; 467460; 475410; 483420; 491460; 499490; 507500; 515450; 523320; 531080; 538690; 546140;
  553390; 560460; 567360; 574090; 580680; 587140; 593470; 599690; 605820; 611870; 617850; 623760;
  629620; 635430; 641190; 646930; 652630; 658320; 663990; 669650; 675320; 680980; 686640; 692300;
  697960; 703610; 709250; 714880; 720500; 726110; 731710; 737280; 742800; 748270; 753670; 758970;
  764170; 769260; 774200; 779000; 783640; 788110; 792410; 796530; 800480; 804240; 807820; 811220;
  814420; 817420; 820240; 822870; 825340; 827670; 829880; 831990; 834010; 835960; 837870; 839740;
  841610; 843450; 845270; 847060; 848810; 850500; 852150; 853720; 855230; 856660; 858000; 859250;
  860400; 861430; 862350; 863140; 863810; 864330; 864700; 864920; 867590; 868580; 869560; 870540;
  871510; 872470; 873430; 874390; 875330; 876270; 877210; 878140; 879060; 879980; 880890; 881790;
  882690; 883580; 884470; 885350; 886220; 887090; 887960; 888810; 889660; 890510; 891350; 892190;
  893010; 893840; 894660; 895470; 896270; 897080; 897870; 898660; 899450; 900230; 901000; 901770;
  902530; 903290; 904040; 904790; 905530; 906270; 907000; 907730; 908450; 909170; 909880; 910580;
  911290; 911980; 912670; 913360; 914040; 914720; 915390; 916060; 916720; 917380; 918030; 918680;
  919320; 919960; 920600; 921230; 921850; 922470; 923090; 923700; 924310; 924910; 925510; 926100;
  926690; 927280; 927860].

(** hpp:6019-6059 *)
Definition T_CES96 : list dec := table (-6) [
  338510; 343040; 347600; 352190; 356810; 361450; 366120; 370810; 375530; 380270; 385040; 389830;
  394630; 399460; 404310; 409180; 414070; 418970; 423890; 428820; 433940; 438690; 443550; 448500;
  453520; 458590; 463690; 468810; 473930; 479020; 484080; 489070; 493990; 498810; 503510; 508080;
  512500; 516760; 520820; 524670; 528300; 531700; 534880; 537870; 540700; 543400; 546000; 548520;
  551000; 553450; 555920; 558420; 560920; 563390; 565790; 568100; 570280; 572300; 574110; 575700;
  577020; 578050; 578800; 579290; 579550; 579600; 579450; 579120; 578650; 578040; 577320; 576520;
  575620; 574640; 573590; 572450; 571240; 569960; 568610; 567190; 565710; 564160; 562550; 560880;
  559130; 557310; 555410; 553430; 551360; 549200; 546950; 544610; 542180; 539660; 537080; 534430;
  531720; 528960; 526160; 523320; 520460; 517580; 514680; 511770; 508850; 505930; 503010; 500100;
  497190; 494290; 491410; 488550; 485710; 482880; 480080; 477290; 474520; 471760; 469020; 466300;
  463590; 460900; 458220; 455550; 452890; 450250; 447620; 445000; 442390; 439790; 437200; 434620;
  432050; 429520; 427030; 424590; 422220; 419910; 417690; 415570; 413550; 411650; 409860; 408190;
  406630; 405170; 403830; 402590; 401450; 400420; 399490; 398660; 397920; 397270; 396720; 396250;
  395870; 395560; 395340; 395190; 395110; 395100; 395160; 395290; 395490; 395750; 396090; 396500;
  396990; 397540; 398160; 398860; 399640; 400490; 401420; 402440; 403560; 404760; 406060; 407460;
  408970; 410580; 412290; 414100; 416010; 418000; 420080; 422240; 424470; 426780; 429150; 431580;
  434080; 436650; 439310; 442060; 444900; 447850; 450910; 454080; 457370; 460800; 464350; 468030;
  471830; 475740; 479760; 483900; 488140; 492480; 496920; 501450; 506080; 510800; 515620; 520530;
  525540; 530650; 535850; 541150; 546550; 552040; 557630; 563320; 569110; 575000; 580990; 587080;
  593270; 599560; 605960; 612460; 619040; 625680; 632370; 639090; 645820; 652530; 659210; 665840;
  672410; 678880; 685270; 691560; 697770; 703870; 709880; 715800; 721610; 727330; 732940; 738450;
  743860; 749160; 754350; 759430; 764410; 769270; 774020; 778660; 783180; 787590; 791880; 796050;
  800110; 804050; 807870; 811580; 815170; 818650; 822010; 825260; 828390; 831390; 834280; 837040;
  839680; 842190; 844560; 846810; 848920; 850890; 852730; 854440; 856030; 857510; 858880; 860150;
  861320; 862400; 863390; 864300; 865150; 865950; 866730; 867490; 868260; 869050; 869890; 870780;
  871740; 872790; 873920; 875110; 876350; 877610; 878900; 880180; 881440; 882680; 883870; 885000;
  886050; 887010; 887870; 888600; 889190; 889630; 889900; 889990; 889880; 892460; 893240; 894010;
  894780; 895540; 896300; 897050; 897800; 898540; 899280; 900010; 900740; 901460; 902180; 902900;
  903610; 904310; 905010; 905710; 906400; 907090; 907770; 908450; 909120; 909790; 910450; 911110;
  911770; 912420; 913070; 913710; 914350; 914980; 915610; 916240; 916860; 917480; 918090; 918700;
  919300; 919900; 920500; 921090; 921680; 922260; 922840; 923420; 923990; 924560; 925130; 925690;
  926240; 926800; 927350; 927890; 928430; 928970; 929500; 930040; 930560; 931080; 931600; 932120;
  932630; 933140; 933650; 934150; 934640; 935140; 935630; 936120; 936600; 937080; 937560; 938030;
  938500; 938970; 939430; 939890].

(** hpp:6060-6100 *)
Definition T_CES97 : list dec := table (-6) [
  119310; 121730; 124190; 126690; 129240; 131830; 134460; 137130; 139860; 142620; 145440; 148290;
  151200; 154150; 157150; 160190; 163280; 166420; 169610; 172850; 176600; 179190; 182410; 186120;
  190200; 194510; 198910; 203260; 207440; 211290; 214700; 217550; 219880; 221750; 223230; 224380;
  225270; 225960; 226520; 227010; 227500; 228040; 228630; 229270; 229940; 230630; 231350; 232070;
  232790; 233510; 234200; 234870; 235500; 236080; 236610; 237070; 237460; 237770; 237980; 238100;
  238100; 237980; 237750; 237380; 236880; 236250; 235470; 234550; 233490; 232270; 230900; 229370;
  227690; 225870; 223910; 221820; 219620; 217310; 214900; 212390; 209800; 207130; 204410; 201620;
  198800; 195950; 193090; 190220; 187350; 184510; 181700; 178930; 176200; 173490; 170810; 168140;
  165490; 162830; 160170; 157490; 154800; 152080; 149330; 146560; 143760; 140930; 138080; 135200;
  132290; 129360; 126400; 123420; 120430; 117450; 114520; 111630; 108830; 106120; 103540; 101090;
  98800; 96689; 94752; 92984; 91378; 89928; 88628; 87471; 86452; 85564; 84800; 84153; 83603; 83132;
  82718; 82341; 81981; 81617; 81229; 80797; 80300; 79721; 79060; 78317; 77494; 76594; 75619; 74570;
  73449; 72258; 71000; 69679; 68312; 66920; 65524; 64144; 62800; 61513; 60304; 59193; 58200; 57350;
  56684; 56246; 56080; 56231; 56744; 57663; 59032; 60896; 63300; 66280; 69839; 73974; 78681; 83956;
  89794; 96192; 103140; 110650; 118700; 127280; 136300; 145660; 155250; 164980; 174750; 184440;
  193970; 203220; 212100; 220520; 228450; 235890; 242830; 249270; 255180; 260570; 265420; 269740;
  273500; 276710; 279400; 281600; 283340; 284660; 285590; 286160; 286420; 286380; 286100; 285590;
  284890; 284010; 282980; 281810; 280530; 279160; 277710; 276220; 274700; 273170; 271650; 270140;
  268650; 267210; 265810; 264470; 263190; 262000; 260900; 259900; 258990; 258190; 257470; 256850;
  256320; 255870; 255500; 255210; 255000; 254860; 254800; 254790; 254850; 254960; 255130; 255340;
  255590; 255880; 256200; 256550; 256930; 257360; 257830; 258350; 258940; 259590; 260310; 261110;
  262000; 262980; 264050; 265200; 266450; 267780; 269200; 270700; 272290; 273950; 275700; 277520;
  279410; 281340; 283290; 285250; 287190; 289110; 290980; 292780; 294500; 296120; 297620; 299010;
  300280; 301420; 302420; 303270; 303970; 304520; 304900; 305110; 305170; 305070; 304850; 304500;
  304040; 303490; 302860; 302160; 301400; 300590; 299730; 298810; 297810; 296730; 295550; 294270;
  292870; 291350; 289700; 287910; 286020; 284080; 282130; 280210; 278380; 276680; 275150; 273840;
  272800; 271190; 269800; 268420; 267050; 265680; 264310; 262950; 261590; 260240; 258890; 257550;
  256210; 254880; 253550; 252220; 250900; 249580; 248270; 246970; 245660; 244370; 243070; 241790;
  240500; 239220; 237950; 236680; 235420; 234150; 232900; 231650; 230400; 229160; 227920; 226690;
  225470; 224240; 223030; 221810; 220600; 219400; 218200; 217010; 215820; 214630; 213450; 212280;
  211110; 209940; 208780; 207630; 206470; 205330; 204180; 203050; 201910; 200790; 199660; 198550;
  197430; 196320; 195220; 194120; 193020; 191930; 190850; 189770; 188690; 187620; 186550; 185490;
  184430; 183380; 182330; 181290; 180250; 179220; 178190; 177160].

(** hpp:6101-6141 *)
Definition T_CES98 : list dec := table (-6) [
  274250; 275980; 277720; 279460; 281210; 282970; 284730; 286500; 288280; 290060; 291850; 293650;
  295450; 297260; 299080; 300900; 302730; 304560; 306400; 308250; 310400; 311790; 313540; 315580;
  317850; 320280; 322820; 325400; 327960; 330440; 332770; 334910; 336870; 338660; 340310; 341840;
  343260; 344610; 345890; 347130; 348360; 349580; 350790; 351980; 353130; 354240; 355270; 356240;
  357110; 357890; 358550; 359080; 359480; 359730; 359820; 359750; 359490; 359050; 358410; 357570;
  356500; 355210; 353700; 351970; 350030; 347890; 345560; 343040; 340330; 337450; 334400; 331190;
  327830; 324330; 320720; 316990; 313180; 309290; 305330; 301320; 297280; 293210; 289130; 285040;
  280950; 276870; 272790; 268730; 264700; 260700; 256730; 252810; 248940; 245120; 241370; 237680;
  234070; 230540; 227100; 223740; 220490; 217340; 214280; 211310; 208430; 205610; 202860; 200160;
  197500; 194890; 192300; 189740; 187190; 184670; 182180; 179700; 177240; 174810; 172400; 170010;
  167650; 165310; 163010; 160750; 158550; 156420; 154380; 152430; 150580; 148860; 147270; 145820;
  144510; 143330; 142280; 141360; 140560; 139880; 139310; 138850; 138490; 138230; 138060; 137950;
  137900; 137880; 137890; 137900; 137900; 137870; 137810; 137690; 137520; 137310; 137070; 136790;
  136490; 136170; 135840; 135510; 135180; 134860; 134570; 134330; 134150; 134050; 134050; 134180;
  134430; 134840; 135430; 136210; 137190; 138410; 139890; 141630; 143670; 146030; 148720; 151770;
  155190; 159010; 163230; 167860; 172900; 178350; 184240; 190550; 197290; 204470; 212100; 220170;
  228660; 237530; 246750; 256290; 266120; 276200; 286510; 297000; 307650; 318420; 329280; 340200;
  351130; 362050; 372920; 383710; 394370; 404880; 415200; 425300; 435140; 444680; 453900; 462760;
  471230; 479270; 486840; 493920; 500470; 506470; 511930; 516880; 521370; 525410; 529040; 532290;
  535190; 537770; 540060; 542090; 543870; 545440; 546790; 547960; 548950; 549790; 550480; 551060;
  551540; 551930; 552260; 552530; 552790; 553030; 553290; 553580; 553920; 554330; 554840; 555450;
  556180; 557040; 558010; 559120; 560360; 561740; 563270; 564940; 566770; 568760; 570910; 573220;
  575710; 578380; 581230; 584270; 587490; 590920; 594540; 598370; 602390; 606590; 610950; 615480;
  620140; 624930; 629840; 634860; 639960; 645140; 650400; 655720; 661110; 666550; 672040; 677580;
  683150; 688760; 694390; 700040; 705700; 711350; 716970; 722550; 728070; 733520; 738880; 744120;
  749250; 754240; 759110; 763850; 768500; 773060; 777530; 781940; 786300; 790610; 794890; 799140;
  803320; 807390; 811280; 814940; 818330; 821400; 824090; 826360; 828140; 830940; 833300; 835630;
  837940; 840220; 842480; 844710; 846910; 849090; 851250; 853370; 855480; 857550; 859610; 861630;
  863640; 865620; 867570; 869500; 871410; 873290; 875150; 876980; 878790; 880580; 882350; 884090;
  885810; 887510; 889190; 890840; 892480; 894090; 895680; 897250; 898800; 900320; 901830; 903320;
  904780; 906230; 907660; 909060; 910450; 911820; 913170; 914500; 915810; 917110; 918380; 919640;
  920880; 922100; 923310; 924500; 925670; 926820; 927960; 929080; 930190; 931280; 932350; 933410;
  934460; 935480; 936500; 937490; 938480; 939450; 940400; 941340; 942270; 943180; 944080; 944960;
  945840; 946700; 947540; 948380].

(** hpp:6142-6182 *)
Definition T_CES99 : list dec := table (-6) [
  169580; 171400; 173230; 175080; 176950; 178820; 180720; 182630; 184560; 186500; 188460; 190430;
  192420; 194420; 196440; 198480; 200530; 202600; 204680; 206780; 209200; 210850; 212900; 215240;
  217790; 220440; 223100; 225670; 228060; 230170; 231900; 233180; 234040; 234520; 234680; 234570;
  234220; 233710; 233060; 232350; 231600; 230870; 230150; 229420; 228690; 227940; 227140; 226310;
  225410; 224450; 223400; 222260; 221040; 219750; 218380; 216950; 215480; 213950; 212390; 210810;
  209200; 207580; 205950; 204310; 202660; 201000; 199330; 197650; 195970; 194290; 192600; 190910;
  189210; 187520; 185830; 184140; 182450; 180770; 179110; 177450; 175800; 174170; 172540; 170930;
  169330; 167730; 166140; 164550; 162970; 161390; 159800; 158210; 156620; 155030; 153430; 151830;
  150230; 148630; 147020; 145410; 143800; 142190; 140580; 138970; 137380; 135810; 134260; 132740;
  131250; 129810; 128400; 127040; 125730; 124460; 123230; 122040; 120880; 119740; 118640; 117560;
  116500; 115460; 114430; 113400; 112390; 111370; 110340; 109310; 108260; 107190; 106100; 104980;
  103840; 102680; 101500; 100320; 99129; 97937; 96748; 95568; 94400; 93249; 92122; 91024; 89962;
  88943; 87972; 87056; 86201; 85413; 84700; 84065; 83508; 83025; 82614; 82272; 81996; 81784; 81632;
  81539; 81500; 81513; 81570; 81664; 81788; 81932; 82090; 82253; 82415; 82566; 82700; 82810; 82900;
  82973; 83034; 83088; 83138; 83190; 83248; 83317; 83400; 83504; 83643; 83829; 84078; 84405; 84823;
  85347; 85992; 86771; 87700; 88793; 90063; 91525; 93193; 95080; 97201; 99570; 102200; 105110;
  108300; 111800; 115620; 119770; 124270; 129140; 134380; 140030; 146090; 152570; 159500; 166880;
  174680; 182860; 191380; 200200; 209290; 218600; 228100; 237750; 247500; 257330; 267220; 277160;
  287160; 297190; 307250; 317350; 327450; 337580; 347700; 357820; 367910; 377960; 387930; 397820;
  407590; 417230; 426710; 436000; 445100; 453980; 462620; 471030; 479200; 487120; 494790; 502190;
  509340; 516210; 522800; 529110; 535140; 540900; 546380; 551590; 556540; 561220; 565630; 569790;
  573700; 577360; 580770; 583970; 586950; 589750; 592360; 594810; 597100; 599260; 601300; 603230;
  605050; 606770; 608390; 609920; 611350; 612690; 613950; 615110; 616200; 617210; 618140; 619010;
  619820; 620570; 621280; 621950; 622590; 623200; 623800; 624380; 624950; 625500; 626040; 626560;
  627050; 627530; 627980; 628400; 628800; 629170; 629510; 629830; 630130; 630410; 630680; 630940;
  631190; 631450; 631700; 631960; 632210; 632460; 632710; 632940; 633160; 633360; 633530; 633680;
  633800; 633990; 634150; 634310; 634470; 634630; 634790; 634940; 635100; 635260; 635420; 635580;
  635740; 635900; 636060; 636220; 636380; 636540; 636700; 636860; 637020; 637180; 637340; 637500;
  637660; 637820; 637970; 638130; 638290; 638450; 638610; 638770; 638930; 639090; 639250; 639410;
  639560; 639720; 639880; 640040; 640200; 640360; 640520; 640680; 640830; 640990; 641150; 641310;
  641470; 641630; 641790; 641940; 642100; 642260; 642420; 642580; 642740; 642890; 643050; 643210;
  643370; 643530; 643680; 643840; 644000; 644160; 644320; 644470; 644630; 644790; 644950; 645110;
  645260; 645420; 645580; 645740; 645890; 646050; 646210; 646370].

(** hpp:6184-6190  [TM_30_15::sample]. *)
Definition T_sample : list (list dec) := [
  T_CES01; T_CES02; T_CES03; T_CES04; T_CES05; T_CES06; T_CES07; T_CES08; T_CES09; T_CES10; T_CES11;
  T_CES12; T_CES13; T_CES14; T_CES15; T_CES16; T_CES17; T_CES18; T_CES19; T_CES20; T_CES21; T_CES22;
  T_CES23; T_CES24; T_CES25; T_CES26; T_CES27; T_CES28; T_CES29; T_CES30; T_CES31; T_CES32; T_CES33;
  T_CES34; T_CES35; T_CES36; T_CES37; T_CES38; T_CES39; T_CES40; T_CES41; T_CES42; T_CES43; T_CES44;
  T_CES45; T_CES46; T_CES47; T_CES48; T_CES49; T_CES50; T_CES51; T_CES52; T_CES53; T_CES54; T_CES55;
  T_CES56; T_CES57; T_CES58; T_CES59; T_CES60; T_CES61; T_CES62; T_CES63; T_CES64; T_CES65; T_CES66;
  T_CES67; T_CES68; T_CES69; T_CES70; T_CES71; T_CES72; T_CES73; T_CES74; T_CES75; T_CES76; T_CES77;
  T_CES78; T_CES79; T_CES80; T_CES81; T_CES82; T_CES83; T_CES84; T_CES85; T_CES86; T_CES87; T_CES88;
  T_CES89; T_CES90; T_CES91; T_CES92; T_CES93; T_CES94; T_CES95; T_CES96; T_CES97; T_CES98; T_CES99].

Definition TM_30_15_sample (N : Num) := map (spectrum_of N) T_sample.
