*.d
*.glob
*.vo
*.vok
*.vos
.*.aux
.*.cache
.Makefile.d
Makefile
Makefile.conf
