*.vo
*.vos
*.vok
*.glob
.*.aux
*.cache
.Makefile*
Makefile
Makefile.conf
__pycache__/
