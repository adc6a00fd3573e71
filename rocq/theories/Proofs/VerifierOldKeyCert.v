(** GENERATED by tools/gen_vkcert.py.  k with y^2 = x^3 + 3 + k q for each point of the verifying key. *)
From Coq Require Import ZArith List.
Import ListNotations.
Open Scope Z_scope.
Definition old_key_cert : list Z := [
  (0);
  (-1684811089430506194242562712309495897326435672658547520703937466274370077726933803046279721797018019390101995797394575193620331153446812535722793293);
  (-273542673550927768421735408252962779492093724006357371675872031643957111308689212812808025080235119305340526246682457386902055435690528629628872140226374);
  (-5027681677991891074977564146751777096968276478073901069307043633611113499872716494932616122250473622761295140678252590997688716654061609364033246543457);
  (-268493126886797378360295902328261927838460259599511601515099183762818857813151329116586297680011144694988478850564816345695102431564266247390254310081325);
  (-5198125501351207650078890992149187330424054375515041169253321813652611094648619154004250193470358646401586616432939642802270603854737407997599996862);
  (-44220975487436437595799897187085631668196439908807659382340085000993526275538338966691772931947792280700906531540516178831192088157294647991847409005430);
  (-1082700204292380193637137516463155884099022419711107397459159438712433547686231938813231384188559416627629898838203619916470185420873797047495615674500);
  (-206351977381565762519009906457738672914601273194217571439482468880781845068049151536081995098961139864137732958567426524986436901506788967226387878192886);
  (-66238526738205300295469862176996808425359148651638645555287264757149016696422935797877903305164860498093246760204711180620260855559268698573016451942);
  (-2248455115612283735912031546374662599807866074518825162807304188310369576172746527562185647131413554341231657723708980170596887843972217491904064848104);
  (-3626236272038395441398042842940039439195535101692455816377903613870617078689788477433604386523338874498949369895264181099035447310443701050074206401958);
  (-29765574211590979992872900562137830646952834242482011411890792341633032991816403482066517229827064123052803231773688756398485156529900652394396746449);
  (-27248932915333911191591930753401494742278712650468169814194153886757303800789545626023816514064705264356419481786925726539876533953276549409183472306166);
  (-458378580697763184829222700140359261596239211447055213168287189746476893943319972604866813082764363850131366776498517749763827848548930502422867162513530);
  (-7446504634681681831799629989104050735311214748629607050355638328122358655401267458795830162210800300470885749812460838103774840719138916448726748747069);
  (-562599523754889666604280153146215271539864893106065008358832320864903724897897267514449143664119517008186569319301949677419612275783625929355304583713);
  (-298380912243251448473015263609126837762316884433060820528903299310266102943212722676664477375222577829942007586765637566546075019427062605327177719853260);
  (-34592212746218895639559300760947721981926213927013037576018202791423608925745471763007893603292537538216840078972566246022695296657750311107744076266337);
  (-7906693548055461825947995859868196289655227510398692271587867414350778657929846629640192106176233286373851064267410374835405001099020384516276574836369);
  (-50705635073988039237623674531585169424462983172524818852177946515911937062014876548449966278915253564568003812218466194197595890657620057092764322512353);
  (-44368496923701194386308071212932668030133969164035858168191143784187964218014634863987289454963985882251200082344983338738543009709628151745425267123337);
  (-243614702741462799666795525148609461231455894842094191039076656332335035010915543339299466637808350504223353582671389488313186388034119462496541566313491);
  (-10850080400235050213590876125343644655977762552268262897285790208867787992350273093619815273085361215321745404219529327070284299493960322571378445927550);
  (-107119001594257232156555609561208876755671059552166097309082908514123048847108710007151578637789968704201067057297043285551498193655255149553342170042414);
  (-8136602943842624390296269100115908044941177377060461329490137605865008494494598771912115420898562573852256760678260492512609933875520494873554043260422);
  (-165071974194816478939228205711409826994912932056235114092888030763497178512142246255546767341942601140466317338740373178064085566541152028550445521669646);
  (-811273554257766207212521355044217145199368365906495102409960407966806205015040938665914228001003833045058289098560818023101330976002653819677899326759);
  (-323549511752309046825949286730742701909376492655027463904214330649062129840049058769721548935597375094617777674183769967827452804680505033667222457836662);
  (-12492305441955974329356954282841317227804416444687083978487040294443974707088219726469873600873011443106059311984842362255428551463835353396157672208037);
  (-113873202725778740795126971875884879244367452023960915328234377725915049841420181220254105141712975338632201536294873126002457481582701890548949060792990);
  (-32167940524571387924695024574275084368507864281512139891489228816240050409945115479334796452050569916190966917297610347873511039373816968426630164275457);
  (-19142039496335218698856537923295895888675123640985361044682788577591168033634040630609036224355843395782610231048498388313140339183938445332577682573)].
Definition old_neg_s_cert : Z * Z := (122402388403091893016378777712582956584051449263910136876911779952418129719205748716130615091460484148111294434112424783675921911039683530064945417877538, -110649780017937450548805458924921020011316497090118255443723523188909887641611863305131587966342394180485893476274661734937760557224840483881161014931082).
