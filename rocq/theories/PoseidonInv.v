(** Generated by tools/genposeidon.py: the Poseidon matrices of the repository as drawn, and inverses. *)

From Coq Require Import ZArith List.
Import ListNotations.
Open Scope Z_scope.

Definition raw_4 : list (list Z) := [
  [15360826795696816513872467279172649524892251126169411922320223428332693023647; 3637917722056036000556854193819661292826598716183203669778417158671824733288; 6643855557673466623164899917055348581358146009596379531564266086599155173366; 19972718845524474570085360228887083014840051634955233219619705682427329910084];
  [8535816854919429333790610434556077679709301774479341954170479241929977234195; 19576623184598236966489361262995353800527231939118025307298791490587861474444; 12983695593843638192420559540591861414906281577752920774323865745138531954756; 21341764362134098403586413226463028687100957904535906068232730914364180537462];
  [9615698287675975739660362496346626019643540136384964819907800972610223153536; 21440179364131434887657976394163125065991499179384378215813496412923831940571; 9177770312475560857234580267663936194348193611070458406076531271219296985650; 19322343295497507733928196329012158701748916858429554561579400660843599218575];
  [21060895788752330071466293063245315310517482072988523530046193343714125314227; 211957416440012503097131254296394270919014187039665483091339603421999265333; 15761997134375564696251328670096881406744947158179269701255509790741976963903; 15286024763283714313108900092239106931598314884288191439855741525808559188360]].

Definition inv_4 : list (list Z) := [
  [6648962563482321379981263778814840401571335706111854754458520996850796302721; 952944150552207332041498415660833743902613115077034839405408099910918079779; 17393443599371048084051111065857187300296123482398526959106383388515929877981; 13191061675548633120234740664459490521619604610666159070705809014718614520314];
  [13872805295269954268139840911837395108041798018769419856292675643663189399121; 7697764258379364454915136277407217606859020299472420448664926062126977133215; 4354784691928564360087422038882496691385210631392828001883249611213996291235; 3914326830720837389456256834179238515432913378606584329359241613544068237486];
  [10657079847160709425577851847768818967689723087768318794889597035742922347966; 448164966079397977148372043323257930588713841532862314989680145242829893960; 4437070960225603662928599639826921724112961055510716610837056682246256418986; 19398488863427833492969693992364387185759621415169921810256897763067835531943];
  [19023830075886117422013972487564898297677191960945834396097906876317027642793; 8166639479128858459454853038364223020701067566725326966951029226332341149352; 19627199167866917790171637287437651269397535675175539556003668015051573108819; 10241972970806032702369789936438984311299848469585002078204004779076243921440]].

Definition raw_3 : list (list Z) := [
  [10960370079893294520948988592215029851733245874849491049937450347922518011775; 5351137954512986426099057721208133912234019048738872440707446537760253860297; 648798212411292433628023906237662771758434760979259283342880055524411706213];
  [944137733103045616110900129141390469838607213443676461347734800326818802530; 14614800444729763736223509045758571822840384299456780602019681039331266440526; 16873202047589771872371103908042318830252934860317485720731417396268047172318];
  [5104896983520318521609603216680709838216956655431606327239988118707382335537; 6099772983379880486216074855860388194027354094772529284679351036041674283416; 10503774073627418951986293796606605854067057574068853394504148551797777334172]].

Definition inv_3 : list (list Z) := [
  [19239722644383672455869115786691863957247817873504634648154678122678143945421; 5279173534663792476181890809326687375554600171150261622053462169518676854451; 619738582806064936004456235320087878116482120882334499859104431019336507848];
  [7915136364028220420038741660312997400806611721946596072470926630302492269680; 7396288580331050456611832120335778887154142358033574262603875888953925569707; 17016120575139753832438963958453257702677393803022601410118475408511110479867];
  [17139599087652101633044601236342951118193380024410544142373331560338151330445; 19882865526801619815343923803623185777042668455525920342246030519557263619674; 822018283797006098429107276997030472117107691520507403877215571246125798812]].

Definition raw_2 : list (list Z) := [
  [18253310595578488313160978774644045894756853954827907637071560583940983972952; 4062688245629467993594113078875765656508652055894855567971703193456157465677];
  [5407154025265950079009677114271878337621256740748551910523138957388080038574; 4599461958715212942549360739030351438939826532530319920224715200620119463287]].

Definition inv_2 : list (list Z) := [
  [12941970895849172526291667592919541709682130227701058128831104674426108789268; 6028171683928098363346304204703071347287827309006734586686557140113886629914];
  [12550512411598033374051946183519840277852545202598163786519780661635505817569; 1461388173112390180005017183807325961746433729918786100486414751918769398016]].
