import xml.etree.ElementTree as E
D="/repo/test/data/"
def q(s): return '"'+s.replace('\\','\\\\').replace('"','\\"').replace('\n','\\n')+'"'
def el(e): return "El(%s,[%s],[%s])"%(q(e.tag),";".join("(%s,%s)"%(q(k),q(v)) for k,v in e.attrib.items()),";\n".join(el(c) for c in e))
out=["open TreModel","open SarMetaModel","open Vec"]
for n,f in [("ms","sample-metadata-ms-rpc00b.xml"),("chip","sample-metadata-rpc00b-ichipb.xml"),("cscrna","sample-metadata-cscrna.xml"),("rsm","i_6130a_truncated_tres.xml")]:
    out.append("let %s_tres = %s"%(n,el(E.parse(D+f).getroot())))
def loc(e): return e.tag.split('}')[-1]
def get(e,p):
    for k in p.split('/'):
        r=[c for c in e if loc(c)==k]
        if not r: return None
        e=r[0]
    return e
def F(s):
    return "(float_of_string %s)"%q(s.strip())
def fl(e,p): return F(get(e,p).text)
def it(e,p): return "(%d)"%int(float(get(e,p).text))
def vec(e): return "{vx=%s;vy=%s;vz=%s}"%(fl(e,"X"),fl(e,"Y"),fl(e,"Z"))
def p1(e): return "{coefs1=[%s];order1=%s}"%(";".join("{value1=%s;exponent1=%s}"%(F(c.text),c.get("exponent1")) for c in e if loc(c)=="Coef"),e.get("order1"))
def p2(e): return "{coefs2=[%s];order2_1=%s;order2_2=%s}"%(";".join("{value2=%s;exponent2_1=%s;exponent2_2=%s}"%(F(c.text),c.get("exponent1"),c.get("exponent2")) for c in e if loc(c)=="Coef"),e.get("order1"),e.get("order2"))
def pxyz(e): return "{poly_x=%s;poly_y=%s;poly_z=%s}"%(p1(get(e,"X")),p1(get(e,"Y")),p1(get(e,"Z")))
def opt(e,f): return "None" if e is None else "(Some %s)"%f(e)
for n in ["rma","capella","pfa"]:
    r=E.parse(D+"sicd/example.sicd121.%s.xml"%n).getroot()
    gt=get(r,"Grid/Type").text; gt="GridPLANE" if gt=="PLANE" else gt
    fa=get(r,"ImageFormation/ImageFormAlgo").text
    out.append("let sicd_%s = {image_data={num_rows=%s;num_cols=%s;first_row=%s;first_col=%s};scp_row=%s;scp_col=%s;scp_position=%s;row_uvect=%s;col_uvect=%s;row_spacing=%s;col_spacing=%s;time_coa=%s;arppoly=%s;grid_type=%s;form_algo=Algo%s;pfa_meta=%s;az_sf=None;inca_meta=%s;arppos=%s;arpvel=%s;side=%s}"%(
      n,it(r,"ImageData/NumRows"),it(r,"ImageData/NumCols"),it(r,"ImageData/FirstRow"),it(r,"ImageData/FirstCol"),it(r,"ImageData/SCPPixel/Row"),it(r,"ImageData/SCPPixel/Col"),
      vec(get(r,"GeoData/SCP/ECF")),vec(get(r,"Grid/Row/UVectECF")),vec(get(r,"Grid/Col/UVectECF")),fl(r,"Grid/Row/SS"),fl(r,"Grid/Col/SS"),p2(get(r,"Grid/TimeCOAPoly")),pxyz(get(r,"Position/ARPPoly")),gt,fa,
      opt(get(r,"PFA"),lambda e:"{fpn=%s;polar_ang=%s;spatial_freq_sf=%s}"%(vec(get(e,"FPN")),p1(get(e,"PolarAngPoly")),p1(get(e,"SpatialFreqSFPoly")))),
      opt(get(r,"RMA/INCA"),lambda e:"{r_ca_scp=%s;time_ca=%s;drate_sf=%s}"%(fl(e,"R_CA_SCP"),p1(get(e,"TimeCAPoly")),p2(get(e,"DRateSFPoly")))),
      vec(get(r,"SCPCOA/ARPPos")),vec(get(r,"SCPCOA/ARPVel")),q(get(r,"SCPCOA/SideOfTrack").text)))
    out.append("let llh_%s=(%s,%s,%s)"%(n,fl(r,"GeoData/SCP/LLH/Lon"),fl(r,"GeoData/SCP/LLH/Lat"),fl(r,"GeoData/SCP/LLH/HAE")))
    out.append("let icp_%s=[%s]"%(n,";".join("(%s,%s,%s)"%(q(c.get("index")),fl(c,"Lon"),fl(c,"Lat")) for c in get(r,"GeoData/ImageCorners"))))
for n,f in [("full","example.sidd.xml"),("chipped","example.sidd-chip.xml")]:
    r=E.parse(D+"sidd/"+f).getroot(); P=get(r,"Measurement/PlaneProjection")
    def rc(e): return "(%s,%s)"%(fl(e,"Col"),fl(e,"Row"))
    out.append("let sidd_%s={ref_position=%s;ref_row=%s;ref_col=%s;plane_urow=%s;plane_ucol=%s;spacing_row=%s;spacing_col=%s;sidd_time_coa=%s;sidd_arppoly=%s;chip=%s}"%(n,
      vec(get(P,"ReferencePoint/ECEF")),fl(P,"ReferencePoint/Point/Row"),fl(P,"ReferencePoint/Point/Col"),vec(get(P,"ProductPlane/RowUnitVector")),vec(get(P,"ProductPlane/ColUnitVector")),fl(P,"SampleSpacing/Row"),fl(P,"SampleSpacing/Col"),p2(get(P,"TimeCOAPoly")),pxyz(get(r,"Measurement/ARPPoly")),
      opt(get(r,"DownstreamReprocessing/GeometricChip"),lambda e:"{chip_cols=%s;chip_rows=%s;upper_left=%s;upper_right=%s;lower_right=%s;lower_left=%s}"%(it(e,"ChipSize/Col"),it(e,"ChipSize/Row"),rc(get(e,"OriginalUpperLeftCoordinate")),rc(get(e,"OriginalUpperRightCoordinate")),rc(get(e,"OriginalLowerRightCoordinate")),rc(get(e,"OriginalLowerLeftCoordinate"))))))
    out.append("let icp_%s=[%s]"%(n,";".join("(%s,%s,%s)"%(q(c.get("index")),fl(c,"Lon"),fl(c,"Lat")) for c in get(r,"GeoData/ImageCorners"))))
open("data.ml","w").write("\n".join(out)+"\n")
