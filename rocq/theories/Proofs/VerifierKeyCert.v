(** GENERATED by tools/gen_vkcert.py.  k with y^2 = x^3 + 3 + k q for each point of the verifying key. *)
From Coq Require Import ZArith List.
Import ListNotations.
Open Scope Z_scope.
Definition key_cert : list Z := [
  (0);
  (-41695917726212812089934763468653003277235712074059005283411271827407597175200715944697150572705551401037755942287251911237047495538695797586184624353686);
  (-173963043570186391296545751354768779072275352385732636038686086035145459846442438028684993798630526757978837213300940314258454520056722004768821018358870);
  (-21096254632100484724296483955507908193695130766288874479035614524180818501929663373448991022401163088957240731493856373319816126840605279776398391641838);
  (-19665990867172724030861794399256081928844516682627434409075302922057697252902856949016291231014506376867839086925469549513140561837839766248212557383190);
  (-149079084095415888878840288364958478396257489595213091777739465773938649265445293949208390830074686605084526893118288395347848664447059203512909861798069);
  (-248992072575284526286895160125932012340801662393049802080619658411321979164213027461920609516596059243292938971316069859914450675593796407090134598945722);
  (-143700118416059977800854481727486090388029882025932462141331213131877932105484497765899530347661839558652249204481155267858336321976382343836596361344566);
  (-202134717035938838156434687790785194142999451327920693177208167197180446556257353433132399673932595302069894867629496250093179758978980556632301478863750);
  (-50731621760277086396400514189542223404604610483767041731965586345977814157076593733186139933833322069445033519562576909601318597963491147006042053908167);
  (-40318784385485849667229659764556714898577452338923647166419214579544812912921059560779790866008736195294910640102126180818357824131835496614922240030509);
  (-1229835398472944964759056712911592314752731165663168174062333410605833854061729826806917241564875971271867232276720097942635314431640089710261159711222);
  (-1821062294113627445054027861834751200365214244832939767518551619377869067613705670948523778069043013509440009589227593509396642883876016292286925536817);
  (-434600200872942188428084701893019502473791368932671191102313104486582943679130976446108515501212116252894300738101379387264770780958119955391853556531749);
  (-46557622221620860822945271409148137904433316844258133280216858072968916985512927764639936190474579500305193519715000850370556591150996510961947051460377);
  (-8934640288129753406132385715152393593930524787806405675898662831982432634179052954892925696575482498268642602681705962223689232741386938148375468642153);
  (-330927645219776328503988394791343361070380079905849542532203576440081729665941023261839547725142576346994439853971421366413760252964115437013086563833470);
  (-109228510582212271168097925418214995485103280526984609587997742294934062154019340070876271448301135572346822285851686420993486847113785511842052133778306);
  (-4896531292416722138617584457126542923680069135896514852236309738448330659841332002332103276778013512003038157643564870364880577202666892106798838742);
  (-121264120903411621036582024696123077947945234506779826396093628833552043358218793165416632280962539301972827975400955643301831583923929252198499034369230);
  (-191920801465009061075769021352368026326816174338570878237255934310026487613819209467912660766093359367911723204622571023408570063099844770313285904962222);
  (-1675644685360317294072507505200373723689875463618361579453625712790041907142178193776778685693703577893652527378036401789928907335871581001624977060422);
  (-10866210357850845615886942949954568307538994920871622361086385615335054139758955928532623199981565301458002182629650748546296339312999998571958959347);
  (-29890390534207672575693510761702493655625476130430732771071057148151562354675605076125306636240441137784687657803118716579635921249878684394408673431);
  (-337532521028286857925154415961709378865463441899927682640276576747165519787028393836412164416092291234534887235844927117923087134752952184076087123340507);
  (-208397392219442382269520680149083183746782676199484979004861737425538779284029242145248147553959205831655275722527647466891416695660164385393244813023982);
  (-272504595129586995437786052901536773820370983799424006672224504912934713419146901088981730360827256777181252099427237698756220191162909802962437852199154);
  (-2553156628298153903060655956034338868180573192572702452390702525735790560006305613289267046946698025056833264193118874461736456778071350372346967035646);
  (-217112213950553234666459712457469297443498569881500943432529224315797579371646909066213216259559552883905631503784637552167270460624744159067079443459502);
  (-6539859198852791791161305572458574960269350994585220918128482594449580812000456715314827363405745396926073517540648540496933711230941088579663282997233);
  (-69281985051520456929009822397994346700625313314274632357029609213132596612272343522032923720414661531187756867689011851809066173139784168141154618086373);
  (-907446263849863539614581874639890257558689755586473734013044249921042794552452056050462998167759930031927070863264029660714877056945212669608784116226);
  (-386157317346781273553261152286903335100949897444942901650575352799296179770055620397094342983345863766719945154698455933068968957599386105454176108423858)].
Definition neg_s_cert : Z * Z := (-41412213547043150435008673272161885789866414037135905354314914355666066640118047159420107109652879379071112398907938309974027949214047841657572768027899, -487642647805263819677750880944164918416828335522172653429604063096390934251966539858168641487170003455694489446805619544899662486585791742940894925606687).
